(** Vocabulary for chains of extractions. *)
From Coq Require Import Permutation.
From Verif Require Import Base Img Types Reader Extract SpecTiles SpecFile SpecExtract.
Open Scope Z_scope.

(** [g] was made from [f] by extractions one after the other, by range or by number. *)
Inductive derived (f : medsfile) : medsfile -> Prop :=
| derived_same : derived f f
| derived_range : forall g h a b, derived f g -> extract_range false g a b = Ok h -> derived f h
| derived_numbers : forall g h order numbers, derived f g -> (forall l, Permutation (order l) l) -> NoDup numbers ->
    extract_numbers order g numbers = Ok h -> derived f h.

(** The same object in two files. *)
Definition same_object (f : medsfile) (j : Z) (g : medsfile) (i : Z) : Prop :=
  (exists o o', zget (m_cat f) j = Some o /\ zget (m_cat g) i = Some o' /\ same_but_starts o o') /\
  (forall t, t = TImage \/ t = TWeight \/ t = TSeg \/ t = TBmask -> same_cutouts f j g i t) /\
  same_psfs f j g i /\
  forall k, 0 <= k -> get_source_info g i k = get_source_info f j k /\ get_jacobian g i k = get_jacobian f j k.

(** A file both extractors can work on. *)
Definition extractable (f : medsfile) : Prop :=
  file_wf f /\ psf_wf f /\ (m_psf f <> None -> m_psf_cols f = PsfRCCut) /\
  has_ext f TImage /\ has_ext f TWeight /\ has_ext f TSeg /\ has_ext f TBmask /\
  m_number_col f = true /\ NoDup (map o_number (m_cat f)).
