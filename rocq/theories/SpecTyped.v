(** Specifications for number types: which numbers a type has, and what the pixels
    of a written cutout should be. *)
From Coq Require Import Qabs Qpower.
From Verif Require Import Base Img Types Typed.
Open Scope Z_scope.

(** Numbers of type f4 (24 bits, exponents down to -149, below 2^128) and f8. *)
Definition is_float (dbl : bool) (x : Q) : Prop :=
  exists m e, (x == inject_Z m * Qpower (2#1) e)%Q /\
    if dbl then - 2 ^ 53 < m < 2 ^ 53 /\ -1074 <= e /\ (Qabs x < Qpower (2#1) 1024)%Q
    else - 2 ^ 24 < m < 2 ^ 24 /\ -149 <= e /\ (Qabs x < Qpower (2#1) 128)%Q.
Definition fl_ok (dbl : bool) (x : fl) : Prop := match x with Fin q => is_float dbl q | _ => True end.

(** Integers of [bits] bits. *)
Definition is_int (signed : bool) (bits z : Z) : Prop :=
  if signed then - 2 ^ (bits - 1) <= z < 2 ^ (bits - 1) else 0 <= z < 2 ^ bits.

(** A number of the type. *)
Definition num_ok (k : kind) (x : num) : Prop :=
  match k, x with
  | KI s b, NI z => is_int s b z
  | KF d, NF y => fl_ok d y
  | _, _ => False
  end.

(** An image file: a rectangle of numbers of its type. *)
Definition arr_ok (a : arr) : Prop :=
  img_ok (a_im a) /\ Forall (num_ok (a_kind a)) (dat (a_im a)) /\
  match a_kind a with KI _ b => 1 <= b <= 64 | KF _ => True end.
Definition tpath_ok (p : tpath) : Prop := match p with QFile a => arr_ok a | _ => True end.
Definition tsource_ok (s : tsource) : Prop :=
  tpath_ok (ts_image s) /\ tpath_ok (ts_bkg s) /\ tpath_ok (ts_weight s) /\ tpath_ok (ts_seg s) /\
  tpath_ok (ts_bmask s) /\ tpath_ok (ts_ormask s) /\ tpath_ok (ts_noise s) /\
  match ts_scale s with SOne => True | SNp d x => fl_ok d x end.

(** Value of a finite number. *)
Definition value (x : num) (q : Q) : Prop :=
  match x with NI z => (q == inject_Z z)%Q | NF (Fin y) => (q == y)%Q | NF _ => False end.
(** The value of the scale. *)
Definition scale_value (s : scalar) (q : Q) : Prop :=
  match s with SOne => (q == 1)%Q | SNp _ (Fin y) => (q == y)%Q | SNp _ _ => False end.

(** A pixel of a file. *)
Definition file_px (p : tpath) (r c : Z) (x : num) : Prop :=
  match p with QFile a => px (a_im a) r c = Some x | _ => False end.
(** The background, zero when there is no file. *)
Definition bkg_value (p : tpath) (r c : Z) (q : Q) : Prop :=
  match p with QFile a => exists x, px (a_im a) r c = Some x /\ value x q | _ => (q == 0)%Q end.

(** Files with floating point numbers. *)
Definition float_file (p : tpath) : Prop := match p with QFile (mkArr (KF _) _) => True | _ => False end.
Definition int_file (p : tpath) : Prop := match p with QFile (mkArr (KI _ _) _) => True | _ => False end.

(** Numbers of a size that can be calibrated without overflow. *)
Definition moderate (x : Q) : Prop := (Qabs x <= Qpower (2#1) 60)%Q.
Definition moderate_scale (x : Q) : Prop := (Qpower (2#1) (-30) <= Qabs x /\ Qabs x <= Qpower (2#1) 30)%Q.

(** [x] is [y] up to a relative error of 2^-20 and an absolute one of [a]. *)
Definition near (x y a : Q) : Prop := (Qabs (x - y) <= Qpower (2#1) (-20) * Qabs y + a)%Q.

(** The file of type [t] of a source. *)
Definition tfile_of (s : tsource) (t : ctype) : tpath :=
  match t with
  | TImage => ts_image s | TWeight => ts_weight s | TSeg => ts_seg s
  | TBmask => ts_bmask s | TOrmask => ts_ormask s | TNoise => ts_noise s
  end.
Definition stored (f : tfile) (iobj icut : Z) (o : obj) (s : slot) : Prop :=
  zget (tf_cat f) iobj = Some o /\ 0 <= icut < o_ncut o /\ zget (o_slots o) icut = Some s.

(** A pixel whose mask has a bit of [bad] set. *)
Definition unusable_px (unusable : option Z) (s : tsource) (r c : Z) : Prop :=
  exists bad z, unusable = Some bad /\ file_px (ts_bmask s) r c (NI z) /\ Z.land z bad <> 0.
(** A pixel that is infinite or NaN. *)
Definition not_finite (x : num) : Prop := match x with NI _ | NF (Fin _) => False | NF _ => True end.

(** A path without a file that can be read as such, or a file. *)
Definition opt_tpath (s : tsource) (p : tpath) : Prop := match p with QNone => ts_bytes s = false | _ => True end.
(** Sources from which the type [t] can be written: floating point images and
    weights, files of equal shapes, masks of an integer type that has the bits of
    [unusable]. *)
Definition treadable (unusable : option Z) (s : tsource) (t : ctype) : Prop :=
  match t with
  | TImage => exists d im, ts_image s = QFile (mkArr (KF d) im) /\ opt_tpath s (ts_bkg s) /\
      forall b, ts_bkg s = QFile b -> nr (a_im b) = nr im /\ nc (a_im b) = nc im
  | TWeight => exists d im, ts_weight s = QFile (mkArr (KF d) im) /\
      forall bad, unusable = Some bad -> opt_tpath s (ts_bmask s) /\
        forall b, ts_bmask s = QFile b -> nr (a_im b) = nr im /\ nc (a_im b) = nc im /\
          exists sg n, a_kind b = KI sg n /\ is_int sg n bad
  | _ => opt_tpath s (tfile_of s t)
  end.
(** Types of mosaics that can hold the fill value. *)
Definition kind_suits (t : ctype) (k : kind) : Prop :=
  match t, k with
  | TImage, KF _ | TWeight, KF _ | TSeg, _ | TBmask, KF _ => True
  | TBmask, KI s b => is_int s b (2 ^ 30)
  | _, _ => False
  end.
