(** The files a cutout type is made from (meds/maker.py 525-583, [_read_image]). *)
From Verif Require Import Base Img Types Reader MakerLayout MakerWrite MakerFile SpecFile.
Open Scope Z_scope.

(** Two sources with the same files for a type; the other files may be anything.
    Masks count for weights only when unusable_bmask is configured. *)
Definition own_files (unusable : option Z) (t : ctype) (s1 s2 : source) : Prop :=
  src_bytes s1 = src_bytes s2 /\
  match t with
  | TImage => src_image s1 = src_image s2 /\ src_bkg s1 = src_bkg s2 /\ src_scale s1 = src_scale s2
  | TWeight => src_weight s1 = src_weight s2 /\ src_scale s1 = src_scale s2 /\
               (unusable <> None -> src_bmask s1 = src_bmask s2)
  | TSeg => src_seg s1 = src_seg s2
  | TBmask => src_bmask s1 = src_bmask s2
  | TOrmask => src_ormask s1 = src_ormask s2
  | TNoise => src_noise s1 = src_noise s2
  end.

(** The same images on the sky. *)
Definition same_sky (rows1 rows2 : list imrow) : Prop := map ir_image rows1 = map ir_image rows2.
Definition all_own (unusable : option Z) (t : ctype) (rows1 rows2 : list imrow) : Prop :=
  forall g r1 r2, zget rows1 g = Some r1 -> zget rows2 g = Some r2 -> own_files unusable t (ir_src r1) (ir_src r2).
