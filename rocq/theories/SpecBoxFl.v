(** Words of the statements about box sizes in doubles. *)
From Coq Require Import Qabs Qpower.
From Verif Require Import Base Img Types CLib CProg SpecCLib SpecCProg.
Open Scope Z_scope.

(** [x] is [y] up to rounding. *)
Definition about (y x : Q) : Prop := (Qabs (x - y) <= Qpower (2#1) (-49) * Qabs y + Qpower (2#1) (-90))%Q.
(** The radius of the box in pixels: five sigma, stretched. *)
Definition radius (flux_radius a_world b_world : Q) : Q :=
  (5 * (flux_radius * 2 / FWHM_FAC) * (2 - b_world / a_world))%Q.
(** Sizes of a detection that a C int holds easily. *)
Definition pixel_ok (z : Z) : Prop := - 2 ^ 30 < z < 2 ^ 30.
