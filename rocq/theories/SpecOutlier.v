(** Specification vocabulary for outlier rejection. *)
From Coq Require Import Reals Permutation Sorted.
From Verif Require Import Base Img.

(** The mean of the two middle values (the same one for odd lengths). *)
Definition median_of (l : list R) (m : R) : Prop :=
  exists s a b, Permutation s l /\ StronglySorted Rle s /\
    zget s ((zlen s - 1) / 2) = Some a /\ zget s (zlen s / 2) = Some b /\ m = ((a + b) / 2)%R.

(** |x - med| > nsigma * sigma + A |med|, with sigma of the weight [w]. *)
Definition outlier (nsigma A med x w : R) : Prop :=
  (0 < w)%R /\ (Rabs (x - med) > nsigma * (1 / sqrt w) + A * Rabs med)%R.

(** Arrays of the store, all of the same shape. *)
Definition array_at (st : list (img R)) (h w : Z) (a : nat) : Prop :=
  exists im, nth_error st a = Some im /\ img_ok im /\ nr im = h /\ nc im = w.

(** Pixel (r, c) of the array. *)
Definition at_px (st : list (img R)) (a : nat) (r c : Z) (x : R) : Prop :=
  exists im, nth_error st a = Some im /\ px im r c = Some x.
