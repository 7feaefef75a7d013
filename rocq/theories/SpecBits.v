(** Images whose bitmasks differ in bits that are not declared unusable
    (meds/maker.py 558-576, the weight is zeroed where [bmask & unusable_bmask] is not 0). *)
From Verif Require Import Base Img Types Reader MakerLayout MakerWrite MakerFile SpecFile.
Open Scope Z_scope.

(** The same pixels are flagged unusable. *)
Definition same_flagged (unusable : option Z) (p1 p2 : path Z) : Prop :=
  match p1, p2 with
  | PFile a, PFile b => nr a = nr b /\ nc a = nc b /\
      forall bad, unusable = Some bad -> forall r c x y, px a r c = Some x -> px b r c = Some y ->
        (Z.land x bad = 0 <-> Z.land y bad = 0)
  | PBlank, PBlank => True
  | PNone, PNone => True
  | _, _ => False
  end.

(** All but the bitmask is the same. *)
Definition other_bits (unusable : option Z) (s1 s2 : source) : Prop :=
  src_bytes s1 = src_bytes s2 /\ src_image s1 = src_image s2 /\ src_bkg s1 = src_bkg s2 /\
  src_weight s1 = src_weight s2 /\ src_seg s1 = src_seg s2 /\ src_ormask s1 = src_ormask s2 /\
  src_noise s1 = src_noise s2 /\ src_scale s1 = src_scale s2 /\ same_flagged unusable (src_bmask s1) (src_bmask s2).

Definition bits_agree (unusable : option Z) (rows1 rows2 : list imrow) : Prop :=
  zlen rows1 = zlen rows2 /\
  forall g r1 r2, zget rows1 g = Some r1 -> zget rows2 g = Some r2 ->
    ir_image r1 = ir_image r2 /\ other_bits unusable (ir_src r1) (ir_src r2).
