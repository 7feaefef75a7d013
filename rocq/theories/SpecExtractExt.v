(** Vocabulary for the statements on the extensions of extracted files. *)
From Coq Require Import String.
From Verif Require Import Base Img Types MakerFile Extract MakerFail Meta ExtractExt.
Open Scope Z_scope.

(** Names as fitsio writes them for this package. *)
Definition lowercase {X} (f : list (hdu X)) : Prop := Forall (fun h => lower (fst h) = fst h) f.
(** Extensions named as cutouts are images. *)
Definition mosaics_plain {X} (f : list (hdu X)) : Prop :=
  Forall (fun h => ctype_of_ext (fst h) <> None -> exists l, snd h = HPix l) f.

(** The extensions the extractor makes itself. *)
Definition tables : list string := ["object_data"; "image_info"; "metadata"]%string.
Definition dummies : list string := ["image_cutouts"; "weight_cutouts"; "seg_cutouts"; "bmask_cutouts"]%string.
Definition required : list string := ["image_cutouts"; "weight_cutouts"; "seg_cutouts"]%string.
Definition optional : list string := ["bmask_cutouts"; "noise_cutouts"; "psf"]%string.
Definition in_file {X} (f : list (hdu X)) (n : string) : bool := match hfind f n with Some _ => true | None => false end.
Definition own_names {X} (f : list (hdu X)) (any_cutouts : bool) : list string :=
  tables ++ if any_cutouts then required ++ filter (in_file f) optional else dummies.

(** Extensions that are none of the package's, or the two it does not know here. *)
Definition foreign {X} (full : X -> bool) (h : hdu X) : Prop :=
  has_data full (snd h) = true /\ ~ In (fst h) default_ext.

(** A mosaic of the new file is a range of the input's mosaic of that name. *)
Definition range_of {X} (f : list (hdu X)) (h : hdu X) (a b : Z) : Prop :=
  exists m x, hfind f (fst h) = Some (HPix m) /\ slice m a b = Ok x /\ snd h = HPix x.

(** A file with two objects of one cutout each, noise maps, psf_info and a table of
    another program; [ex_x_bad] has no weights. *)
Definition ex_x_slot (start : Z) : slot :=
  mkSlot 0 start 5 5 3 3 2 2 1 0 0 1 0 0 0 0 0 (-9999).
Definition ex_x_obj (n start : Z) : obj := mkObj n n 2 0 0 0 0 0 0 0 0 1 [ex_x_slot start].
Definition ex_x_pix (k : Z) : hdata Z := HPix (map (fun i => inject_Z (10 * k + i)) (zrange 8)).
Definition ex_x : list (hdu Z) :=
  [("object_data", HObj [ex_x_obj 1 0; ex_x_obj 2 4]); ("image_info", HInfo []); ("metadata", HMeta 7);
   ("image_cutouts", ex_x_pix 1); ("weight_cutouts", ex_x_pix 2); ("seg_cutouts", ex_x_pix 3);
   ("noise_cutouts", ex_x_pix 4); ("psf_info", HOther 8); ("redshifts", HOther 9)]%string.
Definition ex_x_bad : list (hdu Z) := filter (fun h => negb (String.eqb (fst h) "weight_cutouts")) ex_x.

(** The rows asked for have a place in the mosaics if they have cutouts. *)
Definition placed (rows : list obj) : Prop :=
  Forall (fun o => 0 < o_ncut o -> exists s l, o_slots o = s :: l /\ 0 <= s_start s) rows.
Definition any_cutouts (rows : list obj) : bool := existsb (fun o => 0 <? o_ncut o) rows.
