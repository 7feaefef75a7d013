(** Specification of what scripts/meds-view draws. *)
From Verif Require Import Base Img Types Reader SpecFile Composite Uberseg View.
Open Scope Z_scope.

(** All images have one shape with pixels. *)
Definition all_shape {A} (h w : Z) (l : list (img A)) : Prop :=
  0 < h /\ 0 < w /\ Forall (fun im => img_ok im /\ nr im = h /\ nc im = w) l.

(** The largest and the smallest pixel. *)
Definition is_max (l : list Q) (m : Q) : Prop := In m l /\ Forall (fun x => (x <= m)%Q) l.
Definition is_min (l : list Q) (m : Q) : Prop := In m l /\ Forall (fun x => (m <= x)%Q) l.

(** Same shape, and related pixel by pixel with finite values. *)
Definition drawn (R : Q -> Q -> Prop) (im : img Q) (p : img fv) : Prop :=
  img_ok p /\ nr p = nr im /\ nc p = nc im /\
  forall r c x, px im r c = Some x -> exists y, px p r c = Some (Fin y) /\ R x y.

(** The noise added to an image cutout before it is drawn. *)
Definition noise_of (sd : Q -> Q) (wmax s : Q) : Prop :=
  ((0 < wmax)%Q -> (s == sd wmax)%Q) /\ (~ (0 < wmax)%Q -> (s == 0)%Q).
Definition respects (g : Q -> Q) : Prop := forall a b, (a == b)%Q -> (g a == g b)%Q.

(** The picture last written under a name. *)
Definition same_name (i : Z) (t : vtype) (e : event) : Prop := exists d, e = WriteFile i t d.
Definition left_in (evs : list event) (i : Z) (t : vtype) (d : drawing) : Prop :=
  exists a b, evs = a ++ WriteFile i t d :: b /\ ~ Exists (same_name i t) b.

(** The lines of the page. *)
Definition page (evs : list event) : list event :=
  filter (fun e => match e with WriteFile _ _ _ | ShowWindow _ => false | _ => true end) evs.
Definition page_row (types : list vtype) (i : Z) : list event :=
  HtmlRow :: map (HtmlItem i) types ++ [HtmlRowEnd].

(** The objects of the list that have cutouts. *)
Definition has_cutouts (f : medsfile) (i : Z) : Prop := exists o, zget (m_cat f) i = Some o /\ 0 < o_ncut o.

(** The type can be drawn for all objects with cutouts. *)
Definition one_size (n : Z) (l : list (img Q)) : Prop := zlen l = n /\ exists h w, all_shape h w l.
Definition drawable (fuel : nat) (fast : bool) (f : medsfile) (t : vtype) : Prop :=
  match t with
  | VType (RCut t) => (exists m, ext_find (m_ext f) t = Some m) /\ (t = TImage -> exists m, ext_find (m_ext f) TWeight = Some m)
  | VType RPsf => forall i o, zget (m_cat f) i = Some o -> 0 < o_ncut o -> exists l, get_psf_list f i = Ok l /\ one_size (o_ncut o) l
  | VUber => forall i o, zget (m_cat f) i = Some o -> 0 < o_ncut o -> exists l, get_uberseg_list fuel f i fast = Ok l /\ one_size (o_ncut o) l
  end.

(** The title of cutout [k]. *)
Definition titled (has_coadd : bool) (o : obj) (k : Z) (t : title) : Prop :=
  exists s, zget (o_slots o) k = Some s /\ t = (if has_coadd && (k =? 0) then TCoadd else TFile (s_file s)).

(** [s] is [im], scaled to its own largest pixel, with rows along the second axis. *)
Definition rescaled (im s : img fv) : Prop :=
  nr s = nc im /\ nc s = nr im /\
  exists m, np_max (dat im) = Ok m /\ forall r c x, px im r c = Some x -> px s c r = Some (fclip (fmul x (finv m))).

(** A table with one cell for each image, in rows from left to right, or one plot
    of all of them. *)
Definition table_of (has_coadd : bool) (o : obj) (ims : list (img fv)) (d : drawing) : Prop :=
  exists rows cols cells, d = Table rows cols cells /\ zlen cells = zlen ims /\
    forall k im, zget ims k = Some im ->
      k / cols < rows /\ exists t s, zget cells k = Some ((k / cols, k mod cols), (Some t, s)) /\ titled has_coadd o k t /\ rescaled im s.
Definition combined_of (ims : list (img fv)) (d : drawing) : Prop :=
  exists im s, d = Plot None s /\ make_combined_mosaic ims = Ok im /\ rescaled im s.

(** A write of the picture [d] or of one of its cells. *)
Definition is_write (i : Z) (t : vtype) (e : event) : bool :=
  match e with WriteFile _ _ _ => true | _ => false end.
