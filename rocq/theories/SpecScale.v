(** The same images with other zero points (meds/maker.py 554-583: the scale of an image
    in [_read_image]; 620-630 [_get_scale]). *)
From Verif Require Import Base Img Types Reader MakerLayout MakerWrite MakerFile SpecFile.
Open Scope Z_scope.

Definition same_files (s1 s2 : source) : Prop :=
  src_bytes s1 = src_bytes s2 /\ src_image s1 = src_image s2 /\ src_bkg s1 = src_bkg s2 /\
  src_weight s1 = src_weight s2 /\ src_seg s1 = src_seg s2 /\ src_bmask s1 = src_bmask s2 /\
  src_ormask s1 = src_ormask s2 /\ src_noise s1 = src_noise s2.

(** The scale of image [g] is [a g] times what it was. *)
Definition rescaled (a : Z -> Q) (rows1 rows2 : list imrow) : Prop :=
  zlen rows1 = zlen rows2 /\
  forall g r1 r2, zget rows1 g = Some r1 -> zget rows2 g = Some r2 ->
    ir_image r1 = ir_image r2 /\ same_files (ir_src r1) (ir_src r2) /\
    ~ (a g == 0)%Q /\ (src_scale (ir_src r2) == a g * src_scale (ir_src r1))%Q.

(** Pixel values of type [t] before and after. *)
Definition scales_as (t : ctype) (a x y : Q) : Prop :=
  match t with
  | TImage => (y == a * x)%Q
  | TWeight => (y * (a * a) == x)%Q
  | _ => y = x
  end.

(** Weights read from the two files, by an accessor that may raise. *)
Definition weights_follow (a : Q) (x y : res (img Q)) : Prop :=
  match x, y with
  | Ok u, Ok v => nr u = nr v /\ nc u = nc v /\
      forall r c, match px u r c, px v r c with
                  | Some p, Some q => scales_as TWeight a p q
                  | None, None => True
                  | _, _ => False
                  end
  | Err e, Err e' => e = e'
  | _, _ => False
  end.
