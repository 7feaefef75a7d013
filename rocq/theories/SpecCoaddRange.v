(** Vocabulary for objects counted from the end. *)
From Verif Require Import Base Img Types Coadd SpecCoadd.
Open Scope Z_scope.

(** Counting from the end names the same object: [i] is [j] or [j - n]. *)
Definition means (n i j : Z) : Prop := 0 <= j < n /\ (i = j \/ i = j - n).
(** The coadder counts from the end too. *)
Definition counts_from_end (f : medsfile) (coadder : Z -> res (option cobs * Z)) : Prop :=
  forall j, 0 <= j < zlen (m_cat f) -> coadder (j - zlen (m_cat f)) = coadder j.
(** Object [j] is named by some index of the range. *)
Definition named (f : medsfile) (rg : option (Z * Z)) (j : Z) : Prop :=
  match rg with
  | None => 0 <= j < zlen (m_cat f)
  | Some (a, b) => exists i, a <= i < b /\ means (zlen (m_cat f)) i j
  end.
(** Every index of the range names an object. *)
Definition range_names (f : medsfile) (rg : option (Z * Z)) : Prop :=
  match rg with
  | None => True
  | Some (a, b) => a < b -> - zlen (m_cat f) <= a /\ b <= zlen (m_cat f)
  end.
(** No object is named twice. *)
Definition named_once (f : medsfile) (rg : option (Z * Z)) : Prop :=
  match rg with None => True | Some (a, b) => b - a <= zlen (m_cat f) end.
(** The space reserved for psfs suffices for any of the objects named. *)
Definition psf_room (f : medsfile) (coadder : Z -> res (option cobs * Z)) (rg : option (Z * Z)) (total_psf : Z) : Prop :=
  forall l, NoDup l -> (forall j, In j l -> named f rg j) -> psf_needed coadder l <= total_psf.
(** An exception. *)
Definition refuses {A} (r : res A) : Prop := forall a, r <> Ok a.
