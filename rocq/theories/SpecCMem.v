(** Specification vocabulary for the memory of the C library. *)
From Coq Require Import String Permutation.
From Verif Require Import Base Img Types Reader CLib CMem.
Open Scope Z_scope.

(** A state of the memory: blocks have different names. *)
Definition clean (h : heap) : Prop :=
  NoDup (map fst (h_live h)) /\ Forall (fun b => fst b < h_next h) (h_live h).

(** Afterwards the blocks of before are allocated, and those of [lost]. *)
Definition left_over (h h' : heap) (lost : list (Z * Z)) : Prop := Permutation (h_live h') (lost ++ h_live h).

(** Widths and lengths are not negative. *)
Definition sane_table (t : ctable) : Prop :=
  forall n c, tfind t n = Some c -> 0 <= cc_width c /\ forall i len, cc_text c i = Some len -> 0 <= len.
Definition sane (f : memfile) : Prop :=
  (forall t l, mf_obj f = Some (t, l) -> sane_table t) /\
  (forall t n, mf_info f = Some (t, n) -> sane_table t /\ 0 <= n) /\
  (forall t, mf_meta f = Some t -> sane_table t).

(** No object has more cutouts than the columns have cells. *)
Definition cutouts_fit (f : memfile) : Prop :=
  forall t l, mf_obj f = Some (t, l) -> Forall (fun n => n <= col_size t "file_id") l.
(** Every name is shorter than the buffer. *)
Definition names_fit (f : memfile) : Prop :=
  forall t nrow, mf_info f = Some (t, nrow) ->
  forall name c i len, In name ["image_path"; "wcs_path"; "sky_path"; "seg_path"]%string ->
  tfind t name = Some c -> 0 <= i < nrow -> cc_text c i = Some len -> len < namelen t.
(** Names shorter than their columns, and wcs_path not wider than image_path. *)
Definition names_shorter (f : memfile) : Prop :=
  forall t nrow, mf_info f = Some (t, nrow) ->
  col_size t "wcs_path" <= col_size t "image_path" /\
  forall name c i len, In name ["image_path"; "wcs_path"; "sky_path"; "seg_path"]%string ->
  tfind t name = Some c -> 0 <= i < nrow -> cc_text c i = Some len -> len < cc_width c.

(** The fields of the metadata that are text. *)
Definition meta_text (n : string) : bool :=
  existsb (String.eqb n) ["cat_file"; "coadd_file"; "coadd_srclist"; "cutout_file"; "desdata"; "coaddcat_file"; "medsconf";
                          "min_boxsize"; "max_boxsize"]%string.
(** The field is there and can be read. *)
Definition meta_fine (t : ctable) (n : string) : bool :=
  match tfind t n with
  | None => false
  | Some c => if meta_text n then (match cc_text c 0 with Some _ => true | None => false end) else cc_num c 0
  end.
(** The fields read up to [n]. *)
Fixpoint upto (l : list string) (n : string) : list string :=
  match l with [] => [] | k :: l' => if String.eqb k n then [k] else k :: upto l' n end.
Definition fine_upto (t : ctable) (n : string) : bool := forallb (meta_fine t) (upto META_FIELDS n).
(** Every text that is read is shorter than its column. *)
Definition meta_fits (f : memfile) : Prop :=
  forall t, mf_meta f = Some t ->
  forall n c len, meta_text n = true -> fine_upto t n = true -> tfind t n = Some c -> cc_text c 0 = Some len -> len < cc_width c.

(** All that meds_open reads is there and can be read. *)
Definition readable (f : memfile) : Prop :=
  (exists t l, mf_obj f = Some (t, l) /\ l <> [] /\
    forall n, In n MEDS_COLNAMES -> exists c, tfind t n = Some c /\ forall i, 0 <= i < zlen l -> cc_num c i = true) /\
  (exists t nrow, mf_info f = Some (t, nrow) /\ 0 < nrow /\
    (forall n, In n ["image_id"; "image_flags"; "magzp"; "scale"]%string ->
       exists c, tfind t n = Some c /\ forall i, 0 <= i < nrow -> cc_num c i = true) /\
    (forall n, In n ["image_path"; "wcs_path"; "sky_path"; "seg_path"]%string ->
       exists c, tfind t n = Some c /\ forall i, 0 <= i < nrow -> exists len, cc_text c i = Some len)) /\
  exists t, mf_meta f = Some t.

(** What is never given back: of the metadata, DESDATA, and every text that is there
    but comes after, or is, a field that is missing or cannot be read. *)
Definition lost_meta (t : ctable) : list Z :=
  flat_map (fun n => match tfind t n with
                     | None => []
                     | Some c => if meta_text n && (String.eqb n "desdata" || negb (fine_upto t n)) then [cc_width c] else []
                     end) META_FIELDS.
(** An array of object_data that cannot be read, with all the columns there. *)
Definition rows_unreadable (f : memfile) : bool :=
  match mf_obj f with
  | None => false
  | Some (t, l) =>
    get_colnums t &&
    existsb (fun i => existsb (fun n => match tfind t n with None => true | Some c => negb (cc_num c i) end) MEDS_COLNAMES)
      (zrange (zlen l))
  end.
Definition lost_open (f : option memfile) (opened : bool) : list Z :=
  match f with
  | None => []
  | Some f => if opened then (match mf_meta f with None => [] | Some t => lost_meta t end) else []
  end.

(** Requests one after the other, each cutout given back before the next; whether
    there was one. *)
Fixpoint requests (m : clib) (l : list request) : M (list bool) :=
  match l with
  | [] => ret []
  | q :: l' =>
    do c <- m_get m q;
    do _ <- m_cutout_free c;
    do bs <- requests m l';
    ret (match c with Some _ => true | None => false end :: bs)
  end.
(** What a request loses: the pixels, when there is such a cutout but no such extension. *)
Definition lost_request (f : medsfile) (q : request) : list Z :=
  match zget (m_cat f) (rq_obj q), ext_find (m_ext f) (rq_type q) with
  | Some o, None =>
    match rq_cut q with
    | Some i => if (0 <=? i) && (i <? o_ncut o) then [o_box o * o_box o] else []
    | None => if 0 <? o_ncut o then [o_box o * o_box o * o_ncut o] else []
    end
  | _, _ => []
  end.
(** Whether the request gives a cutout, according to the other model. *)
Definition gives (m : clib) (q : request) : bool :=
  match rq_cut q with
  | Some i => match c_get_cutout m (rq_type q) (rq_obj q) i with Ok (Some _) => true | _ => false end
  | None => match c_get_mosaic m (rq_type q) (rq_obj q) with Ok (Some _) => true | _ => false end
  end.

(** Files of the examples. *)
Definition num_col : ccol := mkCcol 1 (fun _ => None) (fun _ => true).
Definition text_col (w len : Z) : ccol := mkCcol w (fun _ => Some len) (fun _ => false).
Definition obj_x (w : Z) : ctable := map (fun n => (n, mkCcol w (fun _ => None) (fun _ => true))) MEDS_COLNAMES.
Definition info_x (w len : Z) : ctable :=
  map (fun n => (n, text_col w len)) ["image_path"; "wcs_path"; "sky_path"; "seg_path"]%string ++
  map (fun n => (n, num_col)) ["image_id"; "image_flags"; "magzp"; "scale"]%string.
Definition meta_x (w len : Z) (without : string) : ctable :=
  flat_map (fun n => if String.eqb n without then [] else [(n, if meta_text n then text_col w len else num_col)]) META_FIELDS.
(** Two objects with 2 and 3 cutouts, three images. *)
Definition mf_x (path_len : Z) : memfile := mkMf (Some (obj_x 3, [2; 3])) (Some (info_x 20 path_len, 3)) (Some (meta_x 30 12 "")).
(** The second row of dudcol cannot be read. *)
Definition mf_bad_row : memfile :=
  mkMf (Some (("dudcol"%string, mkCcol 3 (fun _ => None) (fun i => i =? 0)) :: obj_x 3, [2; 3])) (Some (info_x 20 10, 3)) (Some (meta_x 30 12 "")).
Definition mf_no_magzp : memfile := mkMf (Some (obj_x 3, [2; 3])) (Some (info_x 20 10, 3)) (Some (meta_x 30 12 "magzp_ref")).
Definition heap_x : heap := mkHeap 7 [(3, 5); (6, 1)].
