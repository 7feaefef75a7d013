(** Images with the background in a file of its own, or taken off before
    (meds/maker.py 545-552, [im -= bkg] in [_read_image]). *)
From Verif Require Import Base Img Types Reader MakerLayout MakerWrite MakerFile SpecFile.
Open Scope Z_scope.

(** The same image after the background is taken off; the other files are the same. *)
Definition same_net (s1 s2 : source) : Prop :=
  src_bytes s1 = src_bytes s2 /\ src_weight s1 = src_weight s2 /\ src_seg s1 = src_seg s2 /\
  src_bmask s1 = src_bmask s2 /\ src_ormask s1 = src_ormask s2 /\ src_noise s1 = src_noise s2 /\
  src_scale s1 = src_scale s2 /\
  exists raw1 raw2, src_image s1 = PFile raw1 /\ src_image s2 = PFile raw2 /\ nr raw1 = nr raw2 /\ nc raw1 = nc raw2 /\
    forall r c x1 x2 b1 b2, px raw1 r c = Some x1 -> px raw2 r c = Some x2 -> bkg_at s1 r c b1 -> bkg_at s2 r c b2 ->
      (x1 - b1 == x2 - b2)%Q.

Definition nets_agree (rows1 rows2 : list imrow) : Prop :=
  zlen rows1 = zlen rows2 /\
  forall g r1 r2, zget rows1 g = Some r1 -> zget rows2 g = Some r2 ->
    ir_image r1 = ir_image r2 /\ same_net (ir_src r1) (ir_src r2).

(** No background, or one of the shape of the image; the name "none" in a path of
    type bytes is taken for a file (C17). *)
Definition bkg_usable (s : source) : Prop :=
  match src_bkg s with
  | PBlank => True
  | PNone => src_bytes s = false
  | PFile bk => exists raw, src_image s = PFile raw /\ nr bk = nr raw /\ nc bk = nc raw
  end.
