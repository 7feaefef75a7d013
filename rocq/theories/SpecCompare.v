(** Specification of the comparison of two files. *)
From Coq Require Import Qabs.
From Verif Require Import Base Img Types Reader SpecFile Compare.
Open Scope Z_scope.

(** Every pair is a row of each catalog with one id. *)
Definition pairs_of (f1 f2 : medsfile) (pairs : list (Z * Z)) : Prop :=
  Forall (fun p => exists o1 o2, zget (m_cat f1) (fst p) = Some o1 /\ zget (m_cat f2) (snd p) = Some o2 /\
            o_id o1 = o_id o2) pairs.

(** The two objects have different numbers of cutouts. *)
Definition counts_differ (f1 f2 : medsfile) (p : Z * Z) : Prop :=
  exists o1 o2, zget (m_cat f1) (fst p) = Some o1 /\ zget (m_cat f2) (snd p) = Some o2 /\ o_ncut o1 <> o_ncut o2.

(** The cutouts [icut] of a pair of objects. *)
Definition cutouts_of (f1 f2 : medsfile) (t : ctype) (p : Z * Z) (icut : Z) (im1 im2 : img Q) : Prop :=
  exists o1 o2, zget (m_cat f1) (fst p) = Some o1 /\ zget (m_cat f2) (snd p) = Some o2 /\
    0 <= icut /\ icut < o_ncut o1 /\ icut < o_ncut o2 /\
    get_cutout f1 (fst p) icut t = Ok im1 /\ get_cutout f2 (snd p) icut t = Ok im2.

(** Some cutout pair has different shapes; a pixel pair with [R]. *)
Definition shape_differs (f1 f2 : medsfile) (t : ctype) (p : Z * Z) : Prop :=
  exists icut im1 im2, cutouts_of f1 f2 t p icut im1 im2 /\ ~ (nr im1 = nr im2 /\ nc im1 = nc im2).
Definition some_pixel (R : Q -> Q -> Prop) (im1 im2 : img Q) : Prop :=
  exists r c x y, px im1 r c = Some x /\ px im2 r c = Some y /\ R x y.
Definition pixel_differs (f1 f2 : medsfile) (t : ctype) (p : Z * Z) : Prop :=
  exists icut im1 im2, cutouts_of f1 f2 t p icut im1 im2 /\ some_pixel (fun x y => ~ (x == y)%Q) im1 im2.

(** The objects looked at: [ids] are positions in the list of pairs. *)
Definition looked_at (pairs : list (Z * Z)) (ids : list Z) (index : Z) (p : Z * Z) : Prop :=
  In index ids /\ zget pairs index = Some p.

(** A difference that may not pass for the type. *)
Definition count_clash (same : bool) f1 f2 (p : Z * Z) : Prop := same = true /\ counts_differ f1 f2 p.

(** Root mean square of the differences from their mean above [tol]: with n
    pixels, n sum d^2 - (sum d)^2 > tol^2 n^2. *)
Definition rms_above (tol : Q) (im1 im2 : img Q) : Prop :=
  let ds := map (fun p => (fst p - snd p)%Q) (combine (dat im1) (dat im2)) in
  let n := inject_Z (nr im1 * nc im1) in
  let s1 := fold_right Qplus 0%Q ds in
  let s2 := fold_right (fun d s => d * d + s)%Q 0%Q ds in
  (tol * tol * (n * n) < n * s2 - s1 * s1)%Q.

(** Catalogs that can be compared and a subset of pairs. *)
Definition same_columns (f1 f2 : medsfile) : Prop :=
  m_number_col f1 = m_number_col f2 /\ m_psf_cols f1 = m_psf_cols f2.
Definition has_types (f : medsfile) (l : list ctype) : Prop :=
  forall t, In t l -> exists m, ext_find (m_ext f) t = Some m.
Definition valid_subset (subset : ctype -> Z -> Z -> list Z) : Prop :=
  forall t n k, Forall (fun i => 0 <= i < n) (subset t n k).
Definition matcher (match_ids : list Z -> list Z -> list (Z * Z)) : Prop :=
  forall l1 l2, Forall (fun p => exists v, zget l1 (fst p) = Some v /\ zget l2 (snd p) = Some v) (match_ids l1 l2).

(** [n] pixels have [R]. *)
Definition pixel_count (R : Q -> Q -> Prop) (im1 im2 : img Q) (n : Z) : Prop :=
  exists pos, NoDup pos /\ zlen pos = n /\
    forall r c, In (r, c) pos <-> exists x y, px im1 r c = Some x /\ px im2 r c = Some y /\ R x y.

(** What is reported for a cutout pair of a looked at object. *)
Definition weight_report (tol : Q) (f1 f2 : medsfile) (pairs : list (Z * Z)) (ids : list Z) (r : report) : Prop :=
  exists index p icut im1 im2 n, looked_at pairs ids index p /\ cutouts_of f1 f2 TWeight p icut im1 im2 /\
    r = WeightsWorse index icut n /\ 0 < n /\ pixel_count (fun x y => (tol <= Qabs (x - y))%Q) im1 im2 n.
Definition rms_report (tol : Q) (f1 f2 : medsfile) (pairs : list (Z * Z)) (ids : list Z) (r : report) : Prop :=
  exists index p icut im1 im2, looked_at pairs ids index p /\ cutouts_of f1 f2 TImage p icut im1 im2 /\
    r = RmsAbove index icut /\ rms_above tol im1 im2.

(** Pictures among the reports. *)
Definition is_picture (r : report) : bool := match r with Picture _ _ _ => true | _ => false end.
