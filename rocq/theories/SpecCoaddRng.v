(** Specification vocabulary for the random numbers of the coadder. *)
From Verif Require Import Base Img Types Reader Coadd SpecTiles SpecComposite SpecCoadd.
Open Scope Z_scope.

(** Observations, and coadds, that differ in their noise maps only. *)
Definition obs_but_noise (a b : obs) : Prop :=
  ob_image a = ob_image b /\ ob_weight a = ob_weight b /\ ob_bmask a = ob_bmask b /\ ob_seg a = ob_seg b /\
  ob_jac a = ob_jac b /\ ob_offset a = ob_offset b /\ ob_psf a = ob_psf b /\ ob_ninterp a = ob_ninterp b.
Definition but_noise (a b : option cobs) : Prop :=
  match a, b with
  | None, None => True
  | Some x, Some y =>
      co_image x = co_image y /\ co_weight x = co_weight y /\ co_seg x = co_seg y /\ co_bmask x = co_bmask y /\
      co_ormask x = co_ormask y /\ co_jac x = co_jac y /\ co_psf x = co_psf y /\ co_psf_row0 x = co_psf_row0 y /\
      co_psf_col0 x = co_psf_col0 y /\ co_ncoadd x = co_ncoadd y /\ co_imflags x = co_imflags y
  | _, _ => False
  end.

(** psc coadds the noise maps apart from the rest. *)
Definition noise_apart (o : oracle) : Prop :=
  forall l l', Forall2 obs_but_noise l l' ->
    match or_coadd o l, or_coadd o l' with
    | Ok (im, wt, _, jac, psf, r0, c0), Ok (im', wt', _, jac', psf', r0', c0') =>
        im = im' /\ wt = wt' /\ jac = jac' /\ psf = psf' /\ r0 = r0' /\ c0 = c0'
    | Err e, Err e' => e = e'
    | _, _ => False
    end.

(** The noise map of an observation comes from the numbers at [a], [a] + 1, ... of
    the stream: at a pixel that was not repaired it is the number at the pixel's
    place, times [err] of the weight. *)
Definition noise_from (bad : option Z) (g : Z -> Q) (err : Q -> Q) (a : Z) (d : decision) (ob : obs) : Prop :=
  forall r k, 0 <= r < nr (ob_weight ob) -> 0 <= k < nc (ob_weight ob) -> ~ unusable_px bad (d_wt d) (d_bm d) (r, k) ->
    exists w, px (ob_weight ob) r k = Some w /\
      px (ob_noise ob) r k = Some (g (a + (r * nc (ob_weight ob) + k))%Z * err w)%Q.

(** Consecutive parts of the stream, one for each observation, as long as it has
    pixels. *)
Definition numbers_used (bad : option Z) (g : Z -> Q) (err : Q -> Q) (ds : list decision) (obslist : list obs) (rs : list (Z * Z)) : Prop :=
  length ds = length obslist /\ length rs = length obslist /\
  forall k d ob a b, zget ds k = Some d -> zget obslist k = Some ob -> zget rs k = Some (a, b) ->
    b = a + nr (ob_weight ob) * nc (ob_weight ob) /\ noise_from bad g err a d ob.

(** The row of an object for a coadd. *)
Definition written_row (co : cobs) (fl : Z) (r : crow) : Prop :=
  o_ncut (cr_obj r) = 1 /\ cr_coadd_flags r = fl /\ cr_ncoadd r = co_ncoadd co /\ (exists rest, cr_orig_flags r = co_imflags co ++ rest) /\
  exists s rest, o_slots (cr_obj r) = s :: rest /\ s_crow s = j_row0 (co_jac co) /\ s_ccol s = j_col0 (co_jac co) /\
    s_dudrow s = j_dudrow (co_jac co) /\ s_dudcol s = j_dudcol (co_jac co) /\ s_dvdrow s = j_dvdrow (co_jac co) /\ s_dvdcol s = j_dvdcol (co_jac co) /\
    s_psf_crow s = co_psf_row0 co /\ s_psf_ccol s = co_psf_col0 co.

(** The first object a range asks for. *)
Definition first_asked (obj_range : option (Z * Z)) : Z := match obj_range with Some (a, _) => a | None => 0 end.

(** [r] is the coadd of object [iobj], with noise made of the numbers from [p] on
    up to [p'] of the stream: each single-epoch cutout used has its own part. *)
Definition coadded_from (c : cconf) (o : oracle) (g : Z -> Q) (err : Q -> Q) (f : medsfile) (iobj p p' : Z) (r : option cobs) : Prop :=
  exists ims wts bms ds obslist rs, epoch_maps c o f iobj ims wts bms /\ decided c ims wts bms ds obslist /\
    tiles p rs p' /\ numbers_used (total_mask (c_bmask_flags c)) g err (filter (fun d => d_flag d =? 0) ds) obslist rs /\
    match r with
    | None => obslist = []
    | Some co => or_coadd o obslist = Ok (co_image co, co_weight co, co_noise co, co_jac co, co_psf co, co_psf_row0 co, co_psf_col0 co)
    end.

(** Rows that agree in all but the places of the pixels and the flags of images. *)
Definition same_row (r r' : crow) : Prop :=
  o_ncut (cr_obj r) = o_ncut (cr_obj r') /\ cr_coadd_flags r = cr_coadd_flags r' /\ (o_ncut (cr_obj r) = 1 -> cr_ncoadd r = cr_ncoadd r' /\
    exists s s', zget (o_slots (cr_obj r)) 0 = Some s /\ zget (o_slots (cr_obj r')) 0 = Some s' /\
      s_crow s = s_crow s' /\ s_ccol s = s_ccol s' /\ s_dudrow s = s_dudrow s' /\ s_dudcol s = s_dudcol s' /\ s_dvdrow s = s_dvdrow s' /\ s_dvdcol s = s_dvdcol s' /\
      s_psf_crow s = s_psf_crow s' /\ s_psf_ccol s = s_psf_ccol s').
