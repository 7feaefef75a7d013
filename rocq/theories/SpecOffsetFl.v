(** Specification for the conversion of positions in floating point (C129). *)
From Coq Require Import Qabs.
From Verif Require Import Base Img Types Typed SpecTyped OffsetFl.
Open Scope Z_scope.

(** The same number: equal fractions, infinities of one sign, NaN. *)
Definition same_fl (x y : fl) : Prop :=
  match x, y with
  | Fin a, Fin b => (a == b)%Q
  | Inf s, Inf s' => s = s'
  | NaN, NaN => True
  | _, _ => False
  end.
Definition same_pos (p q : fpos) : Prop :=
  same_fl (fw_row p) (fw_row q) /\ same_fl (fw_col p) (fw_col q) /\ same_fl (fz_row p) (fz_row q) /\ same_fl (fz_col p) (fz_col q).

(** Two finite numbers at most [e] apart. *)
Definition within (e : Q) (x y : fl) : Prop := exists a b, x = Fin a /\ y = Fin b /\ (Qabs (a - b) <= e)%Q.
Definition within_pos (e : Q) (p q : fpos) : Prop :=
  within e (fw_row p) (fw_row q) /\ within e (fw_col p) (fw_col q) /\ within e (fz_row p) (fz_row q) /\ within e (fz_col p) (fz_col q).

(** Positions at least half a pixel from the origin, as the usual first pixel at 1 gives. *)
Definition usual_position (x : fl) : Prop := exists q, x = Fin q /\ is_float true q /\ (1 # 2 <= q <= 4294967296)%Q.
(** Multiples of 2^-20 below 2^30. *)
Definition coarse_position (x : fl) : Prop :=
  exists q m, x = Fin q /\ (q == inject_Z m / inject_Z (2 ^ 20))%Q /\ (Qabs q <= 1073741824)%Q.
(** Finite and at most [B]. *)
Definition position_upto (B : Q) (x : fl) : Prop := exists q, x = Fin q /\ is_float true q /\ (Qabs q <= B)%Q.
(** Two finite numbers whose difference is [o] within [e]. *)
Definition apart (e o : Q) (w z : fl) : Prop := exists a b, w = Fin a /\ z = Fin b /\ (Qabs (a - b - o) <= e)%Q.
