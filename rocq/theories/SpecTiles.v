(** Specification vocabulary for the storage layout: which pixel ranges a
    catalog refers to and what it means that they tile an interval. *)
From Verif Require Import Base Img Types.

(** [tiles a rs b]: the half open ranges [rs], in this order, are consecutive,
    start at [a] and end at [b]. *)
Inductive tiles : Z -> list (Z * Z) -> Z -> Prop :=
| tiles_nil : forall a, tiles a [] a
| tiles_cons : forall a m rs b, a <= m -> tiles m rs b -> tiles a ((a, m) :: rs) b.

(** The cutouts of an object that are in use. *)
Definition used_slots (o : obj) : list slot := firstn (Z.to_nat (o_ncut o)) (o_slots o).

(** Pixel ranges of all cutouts, catalog order, then cutout order. *)
Definition cut_ranges (cat : list obj) : list (Z * Z) :=
  flat_map (fun o => map (fun s => (s_start s, s_start s + o_box o * o_box o)) (used_slots o)) cat.

(** Same for the psf mosaic. *)
Definition psf_ranges (cat : list obj) : list (Z * Z) :=
  flat_map (fun o => map (fun s => (s_psf_start s, s_psf_start s + s_psf_nr s * s_psf_nc s))
                         (used_slots o)) cat.

(** Shape facts of a catalog array: counts fit in the slot arrays, boxes are not negative. *)
Definition obj_wf (o : obj) : Prop := 0 <= o_ncut o <= zlen (o_slots o) /\ 0 <= o_box o.
Definition cat_wf (cat : list obj) : Prop := Forall obj_wf cat.

(** The image an ideal cutout holds: the source where it exists, else the fill value. *)
Definition crop {A} (v : A) (im : img A) (orow ocol bsize : Z) : img A :=
  tab2 bsize bsize (fun r c => match px im (orow + r) (ocol + c) with Some a => a | None => v end).
