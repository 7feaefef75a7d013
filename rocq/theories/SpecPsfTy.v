(** Specification of PSF images kept in single precision. *)
From Coq Require Import Qabs Qpower.
From Verif Require Import Base Img Types BoundsM MakerLayout MakerWrite MakerFile SpecFile Typed SpecTyped PsfTy.
Open Scope Z_scope.

(** What is kept of a number: the nearest number of type f4, none being nearer,
    and infinities and NaN as they are. *)
Definition kept (x : num) (v : fl) : Prop :=
  match x with
  | NF NaN => v = NaN
  | NF (Inf s) => v = Inf s
  | NI _ | NF (Fin _) =>
    exists q y, value x q /\ v = Fin y /\ is_float false y /\
      (forall z, is_float false z -> (Qabs (y - q) <= Qabs (z - q))%Q) /\
      (Qabs (y - q) <= Qpower (2#1) (-24) * Qabs q + Qpower (2#1) (-150))%Q
  end.

(** A number the extension cannot hold: a double that is infinite or beyond the
    largest f4, 2^128 - 2^104. *)
Definition too_large (a : arr) (x : num) : Prop :=
  a_kind a = KF true /\
  match x with
  | NF (Inf _) => True
  | NF (Fin q) => (Qpower (2#1) 128 - Qpower (2#1) 104 < Qabs q)%Q
  | _ => False
  end.

(** The array rendered for a cutout: the PSF object of its image, called with its
    original position and, where the configuration asks for it, its colour. *)
Definition rendered_for (k : mconf) (psfs : list tpsf) (o : obj) (s : slot) (a : arr) : Prop :=
  exists p, zget psfs (s_file s) = Some p /\
    a = tp_rec p (s_orow s) (s_ocol s) (psf_color_arg (k_l k) (k_p k) (s_file s) o).

(** PSF objects that return arrays of numbers of their type. *)
Definition psfs_ok (psfs : list tpsf) : Prop :=
  forall p r c col, In p psfs -> arr_ok (tp_rec p r c col).

(** Sums of values and of absolute values. *)
Definition qsum (l : list Q) : Q := fold_right Qplus 0%Q l.
Definition qasum (l : list Q) : Q := fold_right (fun x s => Qabs x + s)%Q 0%Q l.
