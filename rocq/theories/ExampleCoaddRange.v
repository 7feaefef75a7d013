(** Example: four objects, the third of which cannot be coadded; ranges that count
    from the end. *)
From Verif Require Import Base Img Types Reader Extract MakerWrite Composite Coadd CoaddRange SpecCoadd ExampleData ExampleCoadd SpecCoaddExt.
Open Scope Z_scope.

Definition ex_range (f : medsfile) (rg : option (Z * Z)) : res (list crow * medsfile) :=
  write_coadds_any f [TImage; TWeight; TSeg; TBmask] 40 ex_junk (fun _ => 0%Q) (ex_coadder f) rg.
(** The same objects in a file with no number column. *)
Definition ex_unnumbered (f : medsfile) : medsfile :=
  mkMeds (m_cat f) false (m_psf_cols f) (m_info f) (m_ext f) (m_psf f).
