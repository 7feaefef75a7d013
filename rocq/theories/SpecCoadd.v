(** Specification vocabulary for the coadder. *)
From Coq Require Import Qabs.
From Verif Require Import Base Img Types Reader Coadd SpecComposite.
Open Scope Z_scope.

(** A value has a bit of the mask set; no mask, no bits. *)
Definition flagged (mask : option Z) (b : Z) : Prop :=
  exists m k, mask = Some m /\ 0 <= k /\ Z.testbit m k = true /\ Z.testbit b k = true.

(** The mask made of a list of flags. *)
Definition total_mask (flags : option (list Z)) : option Z :=
  match flags with None => None | Some l => Some (fold_right Z.add 0 l) end.

(** Exactly [n] things have the property. *)
Definition counted {A} (P : A -> Prop) (n : Z) : Prop :=
  exists l, NoDup l /\ (forall a, In a l <-> P a) /\ zlen l = n.

(** The pixel has no positive weight or carries a bad flag. *)
Definition unusable_px (bad : option Z) (wt : img Q) (bm : img Z) (p : Z * Z) : Prop :=
  exists w b, px wt (fst p) (snd p) = Some w /\ px bm (fst p) (snd p) = Some b /\
    ((w <= 0)%Q \/ flagged bad b).

(** The five reasons to leave a cutout out. *)
Definition edge_test (c : cconf) (bm : img Z) : Prop :=
  exists r k b, px bm r k = Some b /\ flagged (total_mask (c_edge_flags c)) b.

Definition frac_test (c : cconf) (wt : img Q) (bm : img Z) : Prop :=
  exists n, counted (unusable_px (total_mask (c_bmask_flags c)) wt bm) n /\
    (c_max_masked_frac c * inject_Z (nr wt * nc wt) < inject_Z n)%Q.

(** Index [i] is in the Python slice lo:hi of an axis of length [n]. *)
Definition in_slice (n lo hi i : Z) : Prop :=
  0 <= i < n /\ (if lo <? 0 then lo + n else lo) <= i < (if hi <? 0 then hi + n else hi).

Definition central_test (c : cconf) (wt : img Q) (bm : img Z) : Prop :=
  c_central_check c = true /\
  exists lo hi r k,
    nearest_int ((inject_Z (nr wt) - 1) / 2 - c_central_size c / 2)%Q lo /\
    nearest_int ((inject_Z (nr wt) - 1) / 2 + c_central_size c / 2 + 1)%Q hi /\
    in_slice (nr wt) lo hi r /\ in_slice (nc wt) lo hi k /\
    unusable_px (total_mask (c_bmask_flags c)) wt bm (r, k).

(** The sides of a stamp. *)
Inductive side : Type := Bottom | Top | Left | Right.
Definition on_side (s : side) (h w r k : Z) : Prop :=
  0 <= r < h /\ 0 <= k < w /\
  match s with Bottom => r = 0 | Top => r = h - 1 | Left => k = 0 | Right => k = w - 1 end.

Definition sides_test (c : cconf) (wt : img Q) (bm : img Z) : Prop :=
  (exists s, forall r k, on_side s (nr wt) (nc wt) r k -> exists w, px wt r k = Some w /\ (w == 0)%Q) \/
  (exists s, forall r k, on_side s (nr wt) (nc wt) r k ->
     exists b, px bm r k = Some b /\ flagged (total_mask (c_bmask_flags c)) b).

Definition zero_test (wt : img Q) : Prop := forall r k w, px wt r k = Some w -> (w <= 0)%Q.

(** The flag of a cutout: the first reason, or 0. *)
Definition first_reason (c : cconf) (wt : img Q) (bm : img Z) (flag : Z) : Prop :=
  (flag = 2 /\ edge_test c bm) \/
  (~ edge_test c bm /\
   ((flag = 4 /\ frac_test c wt bm) \/
    (~ frac_test c wt bm /\
     ((flag = 8 /\ central_test c wt bm) \/
      (~ central_test c wt bm /\
       ((flag = 16 /\ sides_test c wt bm) \/
        (~ sides_test c wt bm /\
         ((flag = 32 /\ zero_test wt) \/ (flag = 0 /\ ~ zero_test wt))))))))).

(** What symmetrising does to a pixel (r, k): it looks at (k, n - 1 - r). *)
Definition sym_weight (wt wt' : img Q) : Prop :=
  img_ok wt' /\ nr wt' = nr wt /\ nc wt' = nc wt /\
  forall r k w v, px wt r k = Some w -> px wt k (nc wt - 1 - r) = Some v ->
    ((v == 0)%Q -> px wt' r k = Some 0%Q) /\ (~ (v == 0)%Q -> px wt' r k = Some w).
Definition sym_bmask (bad : option Z) (bm bm' : img Z) : Prop :=
  img_ok bm' /\ nr bm' = nr bm /\ nc bm' = nc bm /\
  forall r k b v, px bm r k = Some b -> px bm k (nc bm - 1 - r) = Some v ->
    (flagged bad v -> px bm' r k = Some v) /\ (~ flagged bad v -> px bm' r k = Some b).

(** Outlier rejection keeps the number of weight maps and their shapes (see the
    theorems on reject_outliers for what it does to the pixels). *)
Definition reject_keeps_shapes (o : oracle) : Prop :=
  forall ims wts wts', Forall img_ok wts -> or_reject o ims wts = Ok wts' ->
    Forall2 (fun w w' : img Q => img_ok w' /\ nr w' = nr w /\ nc w' = nc w) wts wts'.

(** The maps on which the decision about the single-epoch cutouts [w] (weight)
    and [b] (mask) is taken. *)
Definition decided_on (c : cconf) (w : img Q) (b : img Z) (w' : img Q) (b' : img Z) : Prop :=
  if c_symmetrize c
  then sym_weight w w' /\ sym_bmask (total_mask (c_bmask_flags c)) b b'
  else w' = w /\ b' = b.

(** Number of zeros of a list. *)
Definition zeros (l : list Z) : Z := zlen (filter (fun x => x =? 0) l).

(** The single-epoch masks and weights of an object as used by the coadder:
    cutouts 1, 2, ... of the file, after outlier rejection if configured. *)
Definition epoch_maps (c : cconf) (o : oracle) (f : medsfile) (iobj : Z)
  (ims wts : list (img Q)) (bms : list (img Z)) : Prop :=
  exists im0 wt0 bm0 wts0 bmsq,
    get_cutout_list f iobj TImage = Ok (im0 :: ims) /\
    get_cutout_list f iobj TWeight = Ok (wt0 :: wts0) /\
    get_cutout_list f iobj TBmask = Ok (bm0 :: bmsq) /\
    (if c_reject c then or_reject o ims wts0 = Ok wts else wts = wts0) /\
    bms = map (imap MakerLayout.qtrunc) bmsq.

(** Interpolation of the unusable pixels: [im], [wt] before, [im'], [wt'] after,
    [noise] the noise map, [n] the returned count. *)
Definition repaired (bad : option Z) (im wt : img Q) (bm : img Z) (im' wt' noise : img Q) (n : Z) : Prop :=
  img_ok im' /\ nr im' = nr im /\ nc im' = nc im /\
  img_ok wt' /\ nr wt' = nr wt /\ nc wt' = nc wt /\
  img_ok noise /\ nr noise = nr wt /\ nc noise = nc wt /\
  (forall r k, ~ unusable_px bad wt bm (r, k) -> px im' r k = px im r k /\ px wt' r k = px wt r k) /\
  (forall r k w, px wt' r k = Some w -> (0 < w)%Q) /\
  counted (unusable_px bad wt bm) n.

(** The interpolator gives one value for each position asked for. *)
Definition interp_total (o : oracle) : Prop :=
  forall good vals bad, good <> [] -> exists v, or_interp o good vals bad = Ok v /\ length v = length bad.

(** A decision about one single-epoch cutout: its image, the weight and mask
    decided on, and the flag. *)
Record decision : Type := mkDec { d_im : img Q; d_wt : img Q; d_bm : img Z; d_flag : Z }.

(** The decisions [ds] about the single-epoch cutouts given by the three lists,
    and the observations made. *)
Definition decided (c : cconf) (ims wts : list (img Q)) (bms : list (img Z)) (ds : list decision) (obslist : list obs) : Prop :=
  zlen ds = zlen ims /\
  (forall k d, zget ds k = Some d ->
     exists w b, zget ims k = Some (d_im d) /\ zget wts k = Some w /\ zget bms k = Some b /\
       decided_on c w b (d_wt d) (d_bm d) /\ first_reason c (d_wt d) (d_bm d) (d_flag d)) /\
  Forall2 (fun d ob => ob_bmask ob = d_bm d /\
             repaired (total_mask (c_bmask_flags c)) (d_im d) (d_wt d) (d_bm d)
               (ob_image ob) (ob_weight ob) (ob_noise ob) (ob_ninterp ob))
    (filter (fun d => d_flag d =? 0) ds) obslist.

(** A value has a bit of one of the flags. *)
Definition has_one_of (l : list Z) (b : Z) : Prop :=
  exists fl i, In fl l /\ 0 <= i /\ Z.testbit fl i = true /\ Z.testbit b i = true.

(** No two flags of the list share a bit. *)
Definition no_shared_bits (l : list Z) : Prop :=
  ForallOrdPairs (fun x y => forall i, 0 <= i -> ~ (Z.testbit x i = true /\ Z.testbit y i = true)) l.

(** The plane of a coadd for a cutout type. *)
Definition coadd_plane (co : cobs) (t : ctype) : img Q :=
  match t with
  | TImage => co_image co
  | TWeight => co_weight co
  | TSeg => co_seg co
  | TBmask => imap inject_Z (co_bmask co)
  | TOrmask => imap inject_Z (co_ormask co)
  | TNoise => co_noise co
  end.

(** The coadder gives stamps of the object's size and square psfs. *)
Definition stamp_shapes (f : medsfile) (coadder : Z -> res (option cobs * Z)) : Prop :=
  forall j o co fl, zget (m_cat f) j = Some o -> coadder j = Ok (Some co, fl) ->
    0 < o_box o /\
    (forall t, img_ok (coadd_plane co t) /\ nr (coadd_plane co t) = o_box o /\ nc (coadd_plane co t) = o_box o) /\
    img_ok (co_psf co) /\ 0 < nr (co_psf co) /\ nc (co_psf co) = nr (co_psf co).

(** The objects asked for: all of them without a range. *)
Definition asked (f : medsfile) (obj_range : option (Z * Z)) (j : Z) : Prop :=
  match obj_range with Some (a, b) => a <= j < b | None => 0 <= j < zlen (m_cat f) end.

(** Pixels reserved by the file of coadds. *)
Definition reserved_pixels (f : medsfile) : Z := fold_right Z.add 0 (map (fun o => o_box o * o_box o) (m_cat f)).

(** Psf pixels of the coadds of the listed objects. *)
Definition psf_needed (coadder : Z -> res (option cobs * Z)) (l : list Z) : Z :=
  fold_right Z.add 0 (map (fun j => match coadder j with
                                    | Ok (Some co, _) => nr (co_psf co) * nr (co_psf co)
                                    | _ => 0 end) l).
(** The space reserved for psfs suffices for any of the objects asked for. *)
Definition psf_space (f : medsfile) (coadder : Z -> res (option cobs * Z)) (obj_range : option (Z * Z)) (total_psf : Z) : Prop :=
  forall l, NoDup l -> (forall j, In j l -> asked f obj_range j) -> psf_needed coadder l <= total_psf.

(** Psfs are square and not empty, and the coadd of square stamps of one size has
    that size and a square psf. *)
Definition psf_ok (p : img Q) : Prop := img_ok p /\ 0 < nr p /\ nc p = nr p.
Definition square_of {A} (b : Z) (im : img A) : Prop := img_ok im /\ nr im = b /\ nc im = b.
Definition coadds_stamps (o : oracle) : Prop :=
  (forall icut j p, or_psf o icut j = Ok p -> psf_ok p) /\
  forall b obslist im wt noise jac psf r0 c0,
    Forall (fun ob => square_of b (ob_image ob) /\ square_of b (ob_weight ob) /\ square_of b (ob_noise ob) /\ psf_ok (ob_psf ob)) obslist ->
    or_coadd o obslist = Ok (im, wt, noise, jac, psf, r0, c0) ->
    square_of b im /\ square_of b wt /\ square_of b noise /\ psf_ok psf.

(** Index [r] is within the central box on an axis of length [n]. *)
Definition half_box (c : cconf) (n r : Z) : Prop :=
  (Qabs (inject_Z r - (inject_Z n - 1) / 2) <= c_central_size c / 2)%Q.

(** The dictionary [r] was given to an earlier construction. *)
Definition used_before (r : nat) (cs : list (option nat)) : bool := existsb (fun x => match x with Some r' => Nat.eqb r r' | None => false end) cs.
(** The settings of a construction after the constructions [before]: those of the
    dictionary, but dither_psfs is gone once the dictionary was used. *)
Definition setting {K} (dflt : K) (h : list (cdict K)) (before : list (option nat)) (x : option nat) : option (bool * K) :=
  match x with
  | None => Some (true, dflt)
  | Some r => match nth_error h r with
              | None => None
              | Some d => Some (if used_before r before then true else match cd_dither d with Some b => b | None => true end, cd_rest d)
              end
  end.

(** An object range within the catalog. *)
Definition range_from_zero (obj_range : option (Z * Z)) : Prop :=
  match obj_range with Some (a, _) => 0 <= a | None => True end.
Definition range_inside (f : medsfile) (obj_range : option (Z * Z)) : Prop :=
  match obj_range with Some (a, b) => 0 <= a /\ b <= zlen (m_cat f) | None => True end.

(** The other packages do their job. *)
Definition oracle_total (o : oracle) : Prop :=
  (forall ims wts, exists wts', or_reject o ims wts = Ok wts') /\
  (forall icut j, exists p, or_psf o icut j = Ok p) /\
  interp_total o /\
  (forall l, l <> [] -> exists x, or_coadd o l = Ok x).
