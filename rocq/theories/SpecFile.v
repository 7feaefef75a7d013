(** Specification of a file written by the maker. *)
From Coq Require Import String.
From Verif Require Import Base Img Types MakerLayout MakerWrite MakerFile SpecTiles SpecLayout.
Open Scope Z_scope.

(** [l'] is [l] restricted, in order, to the elements with [P]. *)
Inductive restricted {A} (P : A -> Prop) : list A -> list A -> Prop :=
| restr_nil : restricted P [] []
| restr_keep : forall a l l', P a -> restricted P l l' -> restricted P (a :: l) (a :: l')
| restr_drop : forall a l l', ~ P a -> restricted P l l' -> restricted P (a :: l) l'.

(** The objects of the output catalog: all of the input, or those inside the
    buffered coadd bounds. *)
Definition selected (c : lconf) (images : list image) (input objs : list obj) : Prop :=
  if first_image_is_coadd c && trim_to_coadd c
  then exists im, zget images 0 = Some im /\ restricted (accepted c 0 im) input objs
  else objs = input.

(** Fill value of the types that have one. *)
Definition fill_value (t : ctype) : option Q :=
  match t with
  | TImage | TWeight | TSeg => Some 0%Q
  | TBmask => Some (inject_Z 1073741824)
  | TOrmask | TNoise => None
  end.

(** Same shape, and related pixel by pixel. *)
Definition pixelwise {A B} (R : Z -> Z -> A -> B -> Prop) (a : img A) (b : img B) : Prop :=
  img_ok b /\ nr b = nr a /\ nc b = nc a /\
  forall r c x y, px a r c = Some x -> px b r c = Some y -> R r c x y.

(** Background at a pixel: 0 without a background file. *)
Definition bkg_at (s : source) (r c : Z) (b : Q) : Prop :=
  match src_bkg s with
  | PFile bk => px bk r c = Some b
  | _ => b = 0%Q
  end.

(** The pixel is flagged unusable. *)
Definition unusable_at (unusable : option Z) (s : source) (r c : Z) : Prop :=
  exists bad bm x, unusable = Some bad /\ src_bmask s = PFile bm /\ px bm r c = Some x /\
    Z.land x bad <> 0.

(** [im] is the calibrated image of type [t] of the source. *)
Definition calibrated (unusable : option Z) (s : source) (t : ctype) (im : img Q) : Prop :=
  match t with
  | TImage => exists raw, src_image s = PFile raw /\
      pixelwise (fun r c x y => exists b, bkg_at s r c b /\ (y == (x - b) * src_scale s)%Q) raw im
  | TWeight => exists raw, src_weight s = PFile raw /\
      pixelwise (fun r c x y =>
        (unusable_at unusable s r c -> (y == 0)%Q) /\
        (~ unusable_at unusable s r c -> (y * (src_scale s * src_scale s) == x)%Q)) raw im
  | TSeg => exists raw, src_seg s = PFile raw /\ pixelwise (fun _ _ x y => y = inject_Z x) raw im
  | TBmask => exists raw, src_bmask s = PFile raw /\ pixelwise (fun _ _ x y => y = inject_Z x) raw im
  | TOrmask => exists raw, src_ormask s = PFile raw /\ pixelwise (fun _ _ x y => y = inject_Z x) raw im
  | TNoise => exists raw, src_noise s = PFile raw /\ pixelwise (fun _ _ x y => y = x) raw im
  end.

(** The source has a file for the type. *)
Definition has_file (s : source) (t : ctype) : Prop :=
  match t with
  | TImage => exists im, src_image s = PFile im
  | TWeight => exists im, src_weight s = PFile im
  | TSeg => exists im, src_seg s = PFile im
  | TBmask => exists im, src_bmask s = PFile im
  | TOrmask => exists im, src_ormask s = PFile im
  | TNoise => exists im, src_noise s = PFile im
  end.

(** Arrays read from files fit their shapes. *)
Definition path_ok {A} (p : path A) : Prop := match p with PFile im => img_ok im | _ => True end.
Definition source_ok (s : source) : Prop :=
  path_ok (src_image s) /\ path_ok (src_bkg s) /\ path_ok (src_weight s) /\ path_ok (src_seg s) /\
  path_ok (src_bmask s) /\ path_ok (src_ormask s) /\ path_ok (src_noise s).

(** A file all of whose mosaics are exactly tiled by the cutouts of its catalog. *)
Definition file_wf (f : medsfile) : Prop :=
  Forall (fun o => 0 <= o_ncut o <= zlen (o_slots o) /\ 0 < o_box o) (m_cat f) /\
  forall t m, ext_find (m_ext f) t = Some m -> tiles 0 (cut_ranges (m_cat f)) (zlen m).

(** Cutout [icut] of object [iobj]: its row and its slot. *)
Definition cutout_at (f : medsfile) (iobj icut : Z) (o : obj) (s : slot) : Prop :=
  zget (m_cat f) iobj = Some o /\ 0 <= icut < o_ncut o /\ zget (o_slots o) icut = Some s.

(** A source from which a type can be read: image and weight need a file (the
    background and bitmask files, when used, of the same shape; the scale not 0
    for the weight); the other types may be blank. *)
Definition same_shape {A B} (a : img A) (b : img B) : Prop := nr a = nr b /\ nc a = nc b.
Definition opt_path {A} (s : source) (p : path A) : Prop := p = PNone -> src_bytes s = false.
Definition readable (unusable : option Z) (s : source) (t : ctype) : Prop :=
  match t with
  | TImage => exists raw, src_image s = PFile raw /\ opt_path s (src_bkg s) /\
      forall b, src_bkg s = PFile b -> same_shape raw b
  | TWeight => exists raw, src_weight s = PFile raw /\ ~ (src_scale s == 0)%Q /\
      (unusable <> None -> opt_path s (src_bmask s) /\
         forall b, src_bmask s = PFile b -> same_shape raw b)
  | TSeg => opt_path s (src_seg s)
  | TBmask => opt_path s (src_bmask s)
  | TOrmask => opt_path s (src_ormask s)
  | TNoise => opt_path s (src_noise s)
  end.

(** Inputs for which the layout exists. *)
Definition layout_possible (c : lconf) (images : list image) (input : list obj) : Prop :=
  input <> [] /\ ncutout_max c = None /\
  (first_image_is_coadd c = true ->
     (trim_to_coadd c = true \/ force_into_coadd_bounds c = true ->
        exists im o, zget images 0 = Some im /\ In o input /\ accepted c 0 im o) /\
     (check_in_coadd c = true -> trim_to_coadd c = false ->
        forall im o, zget images 0 = Some im -> In o input -> accepted c 0 im o)).

(** Types that a source may lack, and a source without a file for a type: the
    path is blank, or the text "none" in a column that is not of bytes. *)
Definition optional_type (t : ctype) : Prop := t <> TImage /\ t <> TWeight.
Definition no_file (s : source) (t : ctype) : Prop :=
  match t with
  | TImage => src_image s = PBlank \/ src_image s = PNone /\ src_bytes s = false
  | TWeight => src_weight s = PBlank \/ src_weight s = PNone /\ src_bytes s = false
  | TSeg => src_seg s = PBlank \/ src_seg s = PNone /\ src_bytes s = false
  | TBmask => src_bmask s = PBlank \/ src_bmask s = PNone /\ src_bytes s = false
  | TOrmask => src_ormask s = PBlank \/ src_ormask s = PNone /\ src_bytes s = false
  | TNoise => src_noise s = PBlank \/ src_noise s = PNone /\ src_bytes s = false
  end.

(** Same configuration with other parallel settings. *)
Definition with_joblib (k : mconf) (b : bool) (n : Z) : mconf :=
  mkMconf (k_l k) (k_p k) (k_unusable k) (k_types k) b n (k_number_col k).

(** Same configuration with force_into_coadd_bounds set or not. *)
Definition with_force (k : mconf) (b : bool) : mconf :=
  let c := k_l k in
  mkMconf (mkLconf (first_image_is_coadd c) (check_in_coadd c) b (trim_to_coadd c)
             (coadd_bounds_buffer_rowcol c) (ncutout_max c) (has_color c) (has_wcs_color c)
             (coadd_astrom_color c) (se_astrom_color c))
    (k_p k) (k_unusable k) (k_types k) (k_joblib k) (k_njob k) (k_number_col k).
