(** Specification for outlier rejection with floating point numbers (C126). *)
From Coq Require Import Qabs Qpower Qreals Reals Permutation Sorted.
From Verif Require Import Base Img Typed SpecFile SpecOutlier.
Open Scope Z_scope.

(** Any square root with a relative error of the square below 10^-6 (numpy's is 2^-23
    for single precision). *)
Definition sqrt_ok (sq : fl -> fl) : Prop :=
  forall q, (0 <= q)%Q -> exists s, sq (Fin q) = Fin s /\ (0 <= s)%Q /\ (Qabs (s * s - q) <= (1#1000000) * q)%Q.

(** Order of numbers that are not NaN. *)
Definition fl_leq (x y : fl) : Prop :=
  match x, y with
  | NaN, _ | _, NaN => False
  | Inf true, _ | _, Inf false => True
  | Fin a, Fin b => (a <= b)%Q
  | _, _ => False
  end.
(** The two middle values (the same for odd lengths). *)
Definition middle (l : list fl) (a b : fl) : Prop :=
  exists s, Permutation s l /\ StronglySorted fl_leq s /\
    zget s ((zlen s - 1) / 2) = Some a /\ zget s (zlen s / 2) = Some b.
(** [m] is the mean of [a] and [b] up to rounding to double precision. *)
Definition mean_of (a b m : Q) : Prop :=
  (Qabs (m - (a + b) / 2) <= Qpower (2#1) (-50) * Qabs ((a + b) / 2) + Qpower (2#1) (-1000))%Q.

(** The values of the images at one pixel. *)
Definition column (ims : list (img fl)) (r c : Z) (vs : list fl) : Prop := Forall2 (fun im v => px im r c = Some v) ims vs.
Definition finite (x : fl) : bool := match x with Fin _ => true | _ => false end.

(** A negative weight counts as zero; [cleared]: a positive weight that became zero. *)
Definition negative (v : fl) : Prop := v = Inf true \/ exists q, v = Fin q /\ (q < 0)%Q.
Definition positive (v : fl) : Prop := v = Inf false \/ exists q, v = Fin q /\ (0 < q)%Q.
Definition clipped (v v' : fl) : Prop := (negative v -> v' = Fin 0) /\ (~ negative v -> v' = v).

(** |x - m| > f (nsigma * sigma + A |m|), for a finite or infinite pixel. *)
Definition beyond (f nsigma A m : Q) (x : fl) (w : Q) : Prop :=
  match x with
  | Fin q => outlier (Q2R (f * nsigma)) (Q2R (f * A)) (Q2R m) (Q2R q) (Q2R w)
  | Inf _ => (0 < w)%Q
  | NaN => False
  end.

(** Sizes for which nothing overflows: pixels and median up to 2^60, weights up to
    2^128, A up to 2^20, nsigma from 1 to 2^50, A |m| up to 2^50 sigma. *)
Definition moderate (nsigma A m : Q) (x : fl) (w : Q) : Prop :=
  (1 <= nsigma <= Qpower (2#1) 50)%Q /\ (0 <= A <= Qpower (2#1) 20)%Q /\ (Qabs m <= Qpower (2#1) 60)%Q /\
  (forall q, x = Fin q -> Qabs q <= Qpower (2#1) 60)%Q /\ (0 < w <= Qpower (2#1) 128)%Q /\
  ((A * m) * (A * m) * w <= Qpower (2#1) 100)%Q.

(** Images and weight maps of one shape. *)
Definition all_shape (h w : Z) (l : list (img fl)) : Prop := Forall (fun im => img_ok im /\ nr im = h /\ nc im = w) l.
(** At least three images with a weight map each. *)
Definition given (h w : Z) (ims wts : list (img fl)) : Prop :=
  3 <= zlen ims /\ length wts = length ims /\ all_shape h w ims /\ all_shape h w wts.
(** The weight map [wt] of image [i] before and [wt'] after. *)
Definition weights_at (wts wts' : list (img fl)) (i : nat) (r c : Z) (v v' : fl) : Prop :=
  exists wt wt', nth_error wts i = Some wt /\ nth_error wts' i = Some wt' /\ px wt r c = Some v /\ px wt' r c = Some v'.

(** Examples: images and weight maps of one pixel, and a square root. *)
Definition ox_one (x : fl) : img fl := mkImg 1 1 [x].
Definition ox_root (x : fl) : fl :=
  match x with
  | Fin q => Fin (Z.sqrt (Qnum q * Zpos (Qden q) * 2 ^ 60) # (Qden q * 2 ^ 30))
  | y => y
  end.
Definition ox_nan : list (img fl) := map ox_one [Fin 0; Fin 0; Fin 1000; Fin 0; NaN].
Definition ox_far : Q := inject_Z (2 ^ 64).
Definition ox_faint : Q := Qpower (2#1) (-126).
Definition ox_good : list (img fl) := map ox_one [Fin 10; Fin (21#2); Fin 100; Fin 11; Inf false].
