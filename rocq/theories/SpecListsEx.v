(** Example files for the accessors that return lists. *)
From Verif Require Import Base Types ExampleData.
Open Scope Z_scope.

(** A small file, and the same without the column number. *)
Definition ex_lists : medsfile := ex_small PsfRCCut [TImage; TWeight; TSeg].
Definition ex_no_number : medsfile :=
  mkMeds (m_cat ex_lists) false (m_psf_cols ex_lists) (m_info ex_lists) (m_ext ex_lists) (m_psf ex_lists).
