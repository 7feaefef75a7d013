(** The same images inside larger frames (meds/maker.py 702-758: positions and first
    pixels of the cutouts; 211-293: their pixels). *)
From Verif Require Import Base Img Types Reader MakerLayout MakerWrite MakerFile SpecFile.
Open Scope Z_scope.

(** Array [a] lies in array [b] with its first pixel at row [dr], column [dc]. *)
Definition inside {A} (dr dc : Z) (a b : img A) : Prop :=
  forall r c x, px a r c = Some x -> px b (r + dr) (c + dc) = Some x.
Definition path_inside {A} (dr dc : Z) (p q : path A) : Prop :=
  match p, q with
  | PFile a, PFile b => inside dr dc a b
  | PFile _, _ | _, PFile _ => False
  | _, _ => True
  end.
Definition source_inside (dr dc : Z) (s1 s2 : source) : Prop :=
  path_inside dr dc (src_image s1) (src_image s2) /\ path_inside dr dc (src_bkg s1) (src_bkg s2) /\
  path_inside dr dc (src_weight s1) (src_weight s2) /\ path_inside dr dc (src_seg s1) (src_seg s2) /\
  path_inside dr dc (src_bmask s1) (src_bmask s2) /\ path_inside dr dc (src_ormask s1) (src_ormask s2) /\
  path_inside dr dc (src_noise s1) (src_noise s2) /\ src_scale s1 = src_scale s2.

(** The wcs of the larger frame gives the positions in it, and the same Jacobians there. *)
Definition wcs_inside (dr dc : Z) (w1 w2 : wcs) : Prop :=
  0 <= dr /\ 0 <= dc /\ w_nrow w1 + dr <= w_nrow w2 /\ w_ncol w1 + dc <= w_ncol w2 /\
  (forall ra dec, w_cut w1 ra dec = true -> w_cut w2 ra dec = true) /\
  (forall ra dec col, (fst (w_pos w2 ra dec col) == fst (w_pos w1 ra dec col) + inject_Z dc /\
                       snd (w_pos w2 ra dec col) == snd (w_pos w1 ra dec col) + inject_Z dr)%Q) /\
  (forall x1 y1 x2 y2 col, (x2 == x1 + inject_Z dc)%Q -> (y2 == y1 + inject_Z dr)%Q ->
     w_jac w2 x2 y2 col = w_jac w1 x1 y1 col).

Definition frames (dr dc : Z -> Z) (rows1 rows2 : list imrow) : Prop :=
  zlen rows1 = zlen rows2 /\
  forall g r1 r2, zget rows1 g = Some r1 -> zget rows2 g = Some r2 ->
    im_offset (ir_image r1) = im_offset (ir_image r2) /\
    wcs_inside (dr g) (dc g) (im_wcs (ir_image r1)) (im_wcs (ir_image r2)) /\
    source_inside (dr g) (dc g) (ir_src r1) (ir_src r2).

(** The psf objects follow the frames. *)
Definition psfs_in_frames (dr dc : Z -> Z) (psf1 psf2 : option (list psfobj)) : Prop :=
  match psf1, psf2 with
  | None, None => True
  | Some ps1, Some ps2 => forall g p1 p2, zget ps1 g = Some p1 -> zget ps2 g = Some p2 ->
      forall r1 c1 r2 c2 col, (r2 == r1 + inject_Z (dr g))%Q -> (c2 == c1 + inject_Z (dc g))%Q ->
        p_rec p2 r2 c2 col = p_rec p1 r1 c1 col
  | _, _ => False
  end.

(** The source has the pixel (the weight also in the bitmask file, which may change it). *)
Definition has_px {A} (p : path A) (r c : Z) : Prop := exists im x, p = PFile im /\ px im r c = Some x.
Definition has_pixel (s : source) (t : ctype) (r c : Z) : Prop :=
  match t with
  | TImage => has_px (src_image s) r c
  | TWeight => has_px (src_weight s) r c /\ forall bm, src_bmask s = PFile bm -> has_px (src_bmask s) r c
  | TSeg => has_px (src_seg s) r c
  | TBmask => has_px (src_bmask s) r c
  | TOrmask => has_px (src_ormask s) r c
  | TNoise => has_px (src_noise s) r c
  end.

(** Two cutouts agree in type [t] on all the pixels that come from the smaller image. *)
Definition same_pixels (f1 f2 : medsfile) (i c1 c2 : Z) (s1 : slot) (box : Z) (src : source) (t : ctype) : Prop :=
  exists im1 im2, get_cutout f1 i c1 t = Ok im1 /\ get_cutout f2 i c2 t = Ok im2 /\
    forall r c, 0 <= r < box -> 0 <= c < box -> has_pixel src t (s_osr s1 + r) (s_osc s1 + c) ->
      exists x y, px im1 r c = Some x /\ px im2 r c = Some y /\ (x == y)%Q.
