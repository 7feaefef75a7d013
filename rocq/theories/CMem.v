(** Model of the memory of the C library src/meds.c: what is allocated, written and
    given back.  Definitions only.  A block has a name and a number of cells (of the
    type of its pointer).  Writing outside a block, using or freeing a block that is
    not allocated is [Err IndexError].  Allocation succeeds; a negative size is
    refused, and the library calls exit.  The open file counts as a block. *)
From Coq Require Import String.
From Verif Require Import Base Img Types Reader CLib.
Open Scope Z_scope.

Record heap : Type := mkHeap { h_next : Z; h_live : list (Z * Z) }.
Definition M (A : Type) : Type := heap -> res (A * heap).
Definition ret {A} (a : A) : M A := fun h => Ok (a, h).
Definition mbind {A B} (m : M A) (k : A -> M B) : M B := fun h => let* r := m h in k (fst r) (snd r).
Notation "'do' x '<-' m ';' k" := (mbind m (fun x => k)) (at level 200, x name, m at level 100, k at level 200).

(** [malloc], [calloc] of [n] cells. *)
Definition alloc (n : Z) : M Z := fun h =>
  if n <? 0 then Err CExit else Ok (h_next h, mkHeap (h_next h + 1) ((h_next h, n) :: h_live h)).

Definition block_size (h : heap) (p : Z) : option Z :=
  match find (fun b => fst b =? p) (h_live h) with Some b => Some (snd b) | None => None end.
(** The first [n] cells of block [p] are written; no cell for [n <= 0]. *)
Definition write (p n : Z) : M unit := fun h =>
  match block_size h p with
  | None => Err IndexError
  | Some s => if n <=? s then Ok (tt, h) else Err IndexError
  end.
(** A field of the structure at [p], of element [i] of the array at [p], is used. *)
Definition use (p : Z) : M unit := write p 1.
Definition use_at (p i : Z) : M unit := write p (i + 1).
Definition free (p : Z) : M unit := fun h =>
  match block_size h p with
  | None => Err IndexError
  | Some _ => Ok (tt, mkHeap (h_next h) (filter (fun b => negb (fst b =? p)) (h_live h)))
  end.
(** [free] of a pointer that may be NULL. *)
Definition free_opt (p : option Z) : M unit := match p with None => ret tt | Some p => free p end.
Definition realloc (p n : Z) : M Z := do _ <- free p; alloc n.

Fixpoint allocs (l : list Z) : M (list Z) :=
  match l with [] => ret [] | n :: l' => do p <- alloc n; do ps <- allocs l'; ret (p :: ps) end.
Fixpoint frees (l : list Z) : M unit :=
  match l with [] => ret tt | p :: l' => do _ <- free p; frees l' end.
Fixpoint reallocs (l : list Z) (n : Z) : M (list Z) :=
  match l with [] => ret [] | p :: l' => do p' <- realloc p n; do ps <- reallocs l' n; ret (p' :: ps) end.

(** A table: for each column its width (the first axis, that is the characters of a
    column of text), for each row the length of the text that cfitsio delivers (without
    the terminating zero; [None]: the read fails), and whether reading as numbers succeeds. *)
Record ccol : Type := mkCcol { cc_width : Z; cc_text : Z -> option Z; cc_num : Z -> bool }.
Definition ctable : Type := list (string * ccol).
Fixpoint tfind (t : ctable) (n : string) : option ccol :=
  match t with [] => None | (k, c) :: t' => if String.eqb k n then Some c else tfind t' n end.

(** The file: the columns of object_data and the ncutout of each row, the columns of
    image_info and its number of rows, the columns of metadata; [None]: no such table. *)
Record memfile : Type := mkMf {
  mf_obj : option (ctable * list Z); mf_info : option (ctable * Z); mf_meta : option ctable }.

(** src/meds.c 210-228 [get_array_col_size] *)
Definition col_size (t : ctable) (n : string) : Z := match tfind t n with None => 0 | Some c => cc_width c end.

(** src/meds.c 23-29 [MEDS_COLNAMES] *)
Definition MEDS_COLNAMES : list string :=
  ["ncutout"; "box_size"; "file_id"; "start_row"; "orig_row"; "orig_col"; "orig_start_row"; "orig_start_col";
   "cutout_row"; "cutout_col"; "dudrow"; "dudcol"; "dvdrow"; "dvdcol"]%string.
(** src/meds.c 125-135 [get_colnums] *)
Definition get_colnums (t : ctable) : bool :=
  forallb (fun n => match tfind t n with None => false | Some _ => true end) MEDS_COLNAMES.

(** src/meds.c 138-169 [fits_load_col_dbl], [fits_load_col_lng]: [nelem] cells are
    written; whether it succeeds. *)
Definition load_col (t : ctable) (name : string) (row nelem p : Z) : M bool :=
  do _ <- write p nelem;
  ret (match tfind t name with None => false | Some c => cc_num c row end).
(** One after the other; the first that fails ends it. *)
Fixpoint load_cols (t : ctable) (row nelem : Z) (l : list (string * Z)) : M bool :=
  match l with
  | [] => ret true
  | (n, p) :: l' => do ok <- load_col t n row nelem p; if ok : bool then load_cols t row nelem l' else ret false
  end.

(** src/meds.h 165-186 [struct meds_cat]; an object holds the pointers file_id, start_row, orig_row,
    orig_col, orig_start_row, orig_start_col, cutout_row, cutout_col, distortion. *)
Record mcat : Type := mkMcat { mc_self : Z; mc_data : Z; mc_objs : list (list Z) }.

(** src/meds.c 294-308 [alloc_fields] *)
Definition alloc_fields (w : Z) : M (list Z) := allocs (repeat w 9).
(** src/meds.c 309-325 [free_fields] *)
Definition free_fields (o : list Z) : M unit := frees o.

(** src/meds.c 347-369 [meds_cat_new] *)
Fixpoint alloc_objs (n : nat) (data i w : Z) : M (list (list Z)) :=
  match n with
  | O => ret []
  | S n' => do _ <- use_at data i; do o <- alloc_fields w; do os <- alloc_objs n' data (i + 1) w; ret (o :: os)
  end.
Definition meds_cat_new (size w : Z) : M mcat :=
  do self <- alloc 1; do data <- alloc size; do objs <- alloc_objs (Z.to_nat size) data 0 w; ret (mkMcat self data objs).

(** src/meds.c 371-382 [meds_cat_free] *)
Fixpoint free_objs (data i : Z) (l : list (list Z)) : M unit :=
  match l with [] => ret tt | o :: l' => do _ <- use_at data i; do _ <- free_fields o; free_objs data (i + 1) l' end.
Definition meds_cat_free (c : mcat) : M unit :=
  do _ <- use (mc_self c); do _ <- free_objs (mc_data c) 0 (mc_objs c); do _ <- free (mc_data c); free (mc_self c).

(** src/meds.c 397-443: one row; [n] is its ncutout, [ds] the arrays dudrow, dudcol,
    dvdrow, dvdcol of [ndist] cells.  ncutout and box_size go to element [row] of the
    objects.  Whether all was read, and the arrays. *)
Definition load_table_row (t : ctable) (data row n : Z) (o : list Z) (ndist : Z) (ds : list Z) : M (bool * (Z * list Z)) :=
  do ok <- load_cols t row (row + 1) [("ncutout", data); ("box_size", data)]%string;
  if negb ok then ret (false, (ndist, ds)) else
  do ok <- load_cols t row n (combine (firstn 8 (skipn 2 MEDS_COLNAMES)) o);
  if negb ok then ret (false, (ndist, ds)) else
  do nd <- (if ndist <? n then do ds <- reallocs ds n; ret (n, ds) else ret (ndist, ds));
  do ok <- load_cols t row n (combine (skipn 10 MEDS_COLNAMES) (snd nd));
  if negb ok then ret (false, nd) else
  do _ <- match nth_error o 8 with Some dist => write dist n | None => fun _ => Err IndexError end;
  ret (true, nd).
Fixpoint load_table_rows (t : ctable) (data row : Z) (l : list (Z * list Z)) (ndist : Z) (ds : list Z) : M (bool * list Z) :=
  match l with
  | [] => ret (true, ds)
  | (n, o) :: l' =>
    do r <- load_table_row t data row n o ndist ds;
    if negb (fst r) then ret (false, snd (snd r))
    else load_table_rows t data (row + 1) l' (fst (snd r)) (snd (snd r))
  end.
(** src/meds.c 385-453 [load_table] *)
Definition load_table (t : ctable) (ncut : list Z) (c : mcat) : M bool :=
  if negb (get_colnums t) then ret false else
  do ds <- allocs [20; 20; 20; 20];
  do _ <- use (mc_self c);
  do r <- load_table_rows t (mc_data c) 0 (combine ncut (mc_objs c)) 20 ds;
  if negb (fst r) then ret false else do _ <- frees (snd r); ret true.

(** src/meds.c 455-483 [read_object_table] *)
Definition m_read_object_table (f : memfile) : M (option mcat) :=
  match mf_obj f with
  | None => ret None
  | Some (t, ncut) =>
    if zlen ncut =? 0 then ret None else
    do c <- meds_cat_new (zlen ncut) (col_size t "file_id");
    do ok <- load_table t ncut c;
    if ok : bool then ret (Some c) else do _ <- meds_cat_free c; ret None
  end.

(** src/meds.h 188-202 [struct meds_info_cat]; an image holds image_path, wcs_path, sky_path, seg_path. *)
Record minfo : Type := mkMinfo { mi_self : Z; mi_data : Z; mi_images : list (list Z) }.

(** src/meds.c 503-534 [meds_info_cat_new] *)
Fixpoint alloc_images (n : nat) (data i w : Z) : M (list (list Z)) :=
  match n with
  | O => ret []
  | S n' => do _ <- use_at data i; do o <- allocs (repeat w 4); do os <- alloc_images n' data (i + 1) w; ret (o :: os)
  end.
Definition meds_info_cat_new (size w : Z) : M minfo :=
  do self <- alloc 1; do data <- alloc size; do im <- alloc_images (Z.to_nat size) data 0 w; ret (mkMinfo self data im).

(** src/meds.c 536-550 [meds_info_cat_free] *)
Fixpoint free_images (data i : Z) (l : list (list Z)) : M unit :=
  match l with [] => ret tt | o :: l' => do _ <- use_at data i; do _ <- frees o; free_images data (i + 1) l' end.
Definition meds_info_cat_free (c : minfo) : M unit :=
  do _ <- use (mi_self c); do _ <- free_images (mi_data c) 0 (mi_images c); do _ <- free (mi_data c); free (mi_self c).

(** cfitsio's fits_read_col_str: the text and a terminating zero. *)
Definition read_str (t : ctable) (name : string) (row p : Z) : M bool :=
  match tfind t name with
  | None => ret false
  | Some c => match cc_text c row with None => ret false | Some len => do _ <- write p (len + 1); ret true end
  end.
Fixpoint read_strs (t : ctable) (row : Z) (l : list (string * Z)) : M bool :=
  match l with
  | [] => ret true
  | (n, p) :: l' => do ok <- read_str t n row p; if ok : bool then read_strs t row l' else ret false
  end.

Definition PATHS : list string := ["image_path"; "wcs_path"; "sky_path"; "seg_path"]%string.
(** src/meds.c 553-627 [load_image_info]; numbers go to element [row] of the images. *)
Definition load_image (t : ctable) (data row : Z) (o : list Z) : M bool :=
  do ok <- load_cols t row (row + 1) [("image_id", data); ("image_flags", data)]%string;
  if negb ok then ret false else
  do ok <- read_strs t row (combine PATHS o);
  if negb ok then ret false else
  load_cols t row (row + 1) [("magzp", data); ("scale", data)]%string.
Fixpoint load_images (t : ctable) (data row : Z) (l : list (list Z)) : M bool :=
  match l with
  | [] => ret true
  | o :: l' => do ok <- load_image t data row o; if ok : bool then load_images t data (row + 1) l' else ret false
  end.

(** src/meds.c 650-671 [read_image_info]; 629-649 [get_namelen_max] is in CLib. *)
Definition namelen (t : ctable) : Z :=
  get_namelen_max (col_size t "image_path") (col_size t "wcs_path") (col_size t "sky_path") (col_size t "seg_path").
Definition m_read_image_info (f : memfile) : M (option minfo) :=
  match mf_info f with
  | None => ret None
  | Some (t, nrow) =>
    if nrow =? 0 then ret None else
    do c <- meds_info_cat_new nrow (namelen t);
    do _ <- use (mi_self c);
    do ok <- load_images t (mi_data c) 0 (mi_images c);
    if ok : bool then ret (Some c) else do _ <- meds_info_cat_free c; ret None
  end.

(** src/meds.c 678-699 [fits_read_string_byname]; [failed]: the status is set. *)
Definition read_string_byname (t : ctable) (failed : bool) (name : string) : M (bool * option Z) :=
  match tfind t name with
  | None => ret (true, None)
  | Some c =>
    do data <- alloc (cc_width c);
    if failed then ret (true, None) else
    do ok <- read_str t name 0 data;
    if ok : bool then ret (false, Some data) else ret (true, None)
  end.
(** src/meds.c 700-740 [fits_read_double_byname], [fits_read_long_byname]: a local variable is written. *)
Definition read_number_byname (t : ctable) (failed : bool) (name : string) : bool :=
  match tfind t name with None => true | Some c => failed || negb (cc_num c 0) end.

Fixpoint read_strings (t : ctable) (failed : bool) (l : list string) : M (bool * list (option Z)) :=
  match l with
  | [] => ret (failed, [])
  | n :: l' => do r <- read_string_byname t failed n; do rs <- read_strings t (fst r) l'; ret (fst rs, snd r :: snd rs)
  end.
Definition read_numbers (t : ctable) (failed : bool) (l : list string) : bool :=
  fold_left (fun b n => read_number_byname t b n) l failed.

(** src/meds.h 204-232 [struct meds_meta]: the pointers. *)
Record mmeta : Type := mkMmeta {
  mm_self : Z; mm_cat_file : option Z; mm_coadd_file : option Z; mm_coadd_srclist : option Z; mm_cutout_file : option Z;
  mm_desdata : option Z; mm_coaddcat_file : option Z; mm_medsconf : option Z }.

(** src/meds.c 746-814 [read_meta] *)
Definition m_read_meta (f : memfile) : M (option mmeta) :=
  match mf_meta f with
  | None => ret None
  | Some t =>
    do self <- alloc 1;
    do _ <- use self;
    do cat <- read_string_byname t false "cat_file";
    do coadd <- read_string_byname t (fst cat) "coadd_file";
    do src <- read_string_byname t (fst coadd) "coadd_srclist";
    do cutout <- read_string_byname t (fst src) "cutout_file";
    do des <- read_string_byname t (read_number_byname t (fst cutout) "magzp_ref") "desdata";
    do ccat <- read_string_byname t
      (read_numbers t (fst des) ["se_hdu"; "se_wt_hdu"; "se_badpix_hdu"; "sky_hdu"; "seg_hdu"; "coadd_hdu"; "coadd_wt_hdu";
         "coadd_seg_hdu"; "fake_coadd_seg"]%string) "coaddcat_file";
    do conf <- read_string_byname t (fst ccat) "medsconf";
    do minb <- read_string_byname t (fst conf) "min_boxsize";
    do _ <- match minb with (false, Some p) => use p | (false, None) => fun _ => Err IndexError | (true, _) => ret tt end;
    do maxb <- read_string_byname t (fst minb) "max_boxsize";
    do _ <- match maxb with (false, Some p) => use p | (false, None) => fun _ => Err IndexError | (true, _) => ret tt end;
    do _ <- free_opt (snd minb);
    do _ <- free_opt (snd maxb);
    ret (Some (mkMmeta self (snd cat) (snd coadd) (snd src) (snd cutout) (snd des) (snd ccat) (snd conf)))
  end.

(** src/meds.c 860-873 [meds_meta_free] *)
Definition meds_meta_free (m : mmeta) : M unit :=
  do _ <- use (mm_self m);
  do _ <- free_opt (mm_cat_file m);
  do _ <- free_opt (mm_coadd_file m);
  do _ <- free_opt (mm_coaddcat_file m);
  do _ <- free_opt (mm_coadd_srclist m);
  do _ <- free_opt (mm_cutout_file m);
  do _ <- free_opt (mm_medsconf m);
  free (mm_self m).

(** src/meds.h 234-242 [struct meds]: meds_path, fits, cat, image_info, meta. *)
Record mmeds : Type := mkMmeds { md_self : Z; md_path : Z; md_fits : Z; md_cat : mcat; md_info : minfo; md_meta : mmeta }.

(** src/meds.c 991-1043 [meds_open]; [None]: the file cannot be opened; [len]: the length of its name. *)
Definition m_open (len : Z) (f : option memfile) : M (option mmeds) :=
  match f with
  | None => ret None
  | Some f =>
    do fits <- alloc 1;
    do cat <- m_read_object_table f;
    match cat with
    | None => do _ <- free fits; ret None
    | Some cat =>
      do info <- m_read_image_info f;
      match info with
      | None => do _ <- free fits; do _ <- meds_cat_free cat; ret None
      | Some info =>
        do meta <- m_read_meta f;
        match meta with
        | None => do _ <- free fits; do _ <- meds_cat_free cat; do _ <- meds_info_cat_free info; ret None
        | Some meta =>
          do self <- alloc 1;
          do path <- alloc (len + 1);
          ret (Some (mkMmeds self path fits cat info meta))
        end
      end
    end
  end.

(** src/meds.c 1045-1056 [meds_free] *)
Definition m_free (m : option mmeds) : M unit :=
  match m with
  | None => ret tt
  | Some m =>
    do _ <- use (md_self m);
    do _ <- free (md_path m);
    do _ <- meds_cat_free (md_cat m);
    do _ <- meds_info_cat_free (md_info m);
    do _ <- meds_meta_free (md_meta m);
    do _ <- free (md_fits m);
    free (md_self m)
  end.

(** src/meds.c 1222-1257 [get_cutout_data_dbl], [get_cutout_data_int] *)
Definition m_cutout_data (m : clib) (t : ctype) (start_row npix : Z) : M (option Z) :=
  do pix <- alloc npix;
  match ext_find (cl_ext m) t with
  | None => ret None
  | Some mos =>
    do _ <- write pix npix;
    match slice mos start_row (start_row + npix) with
    | Ok _ => ret (Some pix)
    | Err _ => do _ <- free pix; ret None
    end
  end.

Definition lift {A} (r : res A) : M A := fun h => let* a := r in Ok (a, h).
(** src/meds.c 1262-1388 [get_cutoutp_dbl], [get_mosaicp_dbl] and those of int: the pixels,
    ncutout and the box size. *)
Definition m_cutoutp (m : clib) (t : ctype) (iobj icutout : Z) : M (option (Z * Z * Z)) :=
  match check_iobj_icutout m iobj icutout with
  | None => ret None
  | Some o =>
    do start_row <- lift (mem (co_start o) icutout);
    do p <- m_cutout_data m t start_row (co_box o * co_box o);
    ret (match p with None => None | Some p => Some (p, 1, co_box o) end)
  end.
Definition m_mosaicp (m : clib) (t : ctype) (iobj : Z) : M (option (Z * Z * Z)) :=
  match check_iobj_icutout m iobj 0 with
  | None => ret None
  | Some o =>
    do start_row <- lift (mem (co_start o) 0);
    do p <- m_cutout_data m t start_row (co_box o * co_box o * co_ncutout o);
    ret (match p with None => None | Some p => Some (p, co_ncutout o, co_box o) end)
  end.

(** src/meds.h 359-370 [struct meds_cutout]: the structure, the rows and the pixels. *)
Record mcutout : Type := mkMcut { mt_self : Z; mt_rows : Z; mt_pix : Z }.

(** src/meds.c 915-983 [cutout_from_ptr], [icutout_from_ptr]: rows[0] is always written. *)
Definition m_cutout_from_ptr (pix ncutout nrow : Z) : M mcutout :=
  do self <- alloc 1;
  do _ <- use self;
  do rows <- alloc (ncutout * nrow);
  do _ <- write rows 1;
  do _ <- write rows (ncutout * nrow);
  ret (mkMcut self rows pix).

(** src/meds.c 879-912 [meds_cutout_free], [meds_icutout_free] *)
Definition m_cutout_free (c : option mcutout) : M unit :=
  match c with
  | None => ret tt
  | Some c =>
    do _ <- use (mt_self c);
    do _ <- use (mt_rows c);
    do _ <- free (mt_pix c);
    do _ <- use (mt_rows c);
    do _ <- free (mt_rows c);
    free (mt_self c)
  end.

(** src/meds.c 1453-1540: [meds_get_cutout], [meds_get_mosaic] and those of weight and seg.
    A request is a cutout or, without number, a mosaic. *)
Record request : Type := mkReq { rq_type : ctype; rq_obj : Z; rq_cut : option Z }.
Definition m_get (m : clib) (q : request) : M (option mcutout) :=
  do p <- match rq_cut q with
          | Some i => m_cutoutp m (rq_type q) (rq_obj q) i
          | None => m_mosaicp m (rq_type q) (rq_obj q)
          end;
  match p with
  | None => ret None
  | Some (pix, n, box) => do c <- m_cutout_from_ptr pix n box; ret (Some c)
  end.
