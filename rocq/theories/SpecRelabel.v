(** Specification: two files that differ only in the numbers given to the objects. *)
From Verif Require Import Base Img Types.
Open Scope Z_scope.

(** Another numbering: different numbers stay different, 0 (sky) stays 0, positive
    numbers stay positive. *)
Definition renaming (phi : Z -> Z) : Prop :=
  (forall a b, phi a = phi b -> a = b) /\ phi 0 = 0 /\ (forall z, 0 < z -> 0 < phi z).

(** A value of a segmentation map (a non-negative integer) and its new value. *)
Definition renamed (phi : Z -> Z) (s s' : Q) : Prop :=
  exists z, 0 <= z /\ (s == inject_Z z)%Q /\ (s' == inject_Z (phi z))%Q.

Definition renamed_img (phi : Z -> Z) (a b : img Q) : Prop :=
  nr b = nr a /\ nc b = nc a /\ Forall2 (renamed phi) (dat a) (dat b).

(** The same row with the new number. *)
Definition renamed_obj (phi : Z -> Z) (o o' : obj) : Prop :=
  0 <= o_number o /\
  o' = mkObj (o_id o) (phi (o_number o)) (o_box o) (o_ra o) (o_dec o) (o_color o) (o_wcs_color o)
        (o_psf_color o) (o_psf_nr o) (o_psf_nc o) (o_psf_box o) (o_ncut o) (o_slots o).

(** The same file with new numbers in the catalog and in the seg mosaic. *)
Record renamed_file (phi : Z -> Z) (f f' : medsfile) : Prop := {
  rf_cat : Forall2 (renamed_obj phi) (m_cat f) (m_cat f');
  rf_col : m_number_col f' = m_number_col f;
  rf_ext : forall t, t <> TSeg -> ext_find (m_ext f') t = ext_find (m_ext f) t;
  rf_seg : match ext_find (m_ext f) TSeg, ext_find (m_ext f') TSeg with
           | Some m, Some m' => Forall2 (renamed phi) m m'
           | None, None => True
           | _, _ => False
           end }.

(** Both computations give related values, or the same error. *)
Definition both {A B} (R : A -> B -> Prop) (x : res A) (y : res B) : Prop :=
  match x, y with
  | Ok a, Ok b => R a b
  | Err e, Err e' => e = e'
  | _, _ => False
  end.
