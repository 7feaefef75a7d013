(** Vocabulary for the statements on the extensions of files extracted by number. *)
From Coq Require Import String.
From Verif Require Import Base Img Types MakerFile Extract MakerFail Meta ExtractExt SpecExtractExt.
Open Scope Z_scope.

Definition num_names {X} (f : list (hdu X)) (any_cutouts : bool) : list string :=
  tables ++ if any_cutouts then dummies ++ filter (in_file f) ["psf"%string] else dummies.

(** The objects asked for. *)
Definition asked (numbers : list Z) (o : obj) : bool := existsb (Z.eqb (o_number o)) numbers.

(** Three objects; the second has no cutouts; noise maps and a foreign table; the third
    example has no bit masks. *)
Definition ex_n_obj (n nc start : Z) : obj := mkObj n n 2 0 0 0 0 0 0 0 0 nc [ex_x_slot start].
Definition ex_n : list (hdu Z) :=
  [("object_data", HObj [ex_n_obj 5 1 0; ex_n_obj 2 0 (-9999); ex_n_obj 9 1 4]); ("image_info", HInfo []); ("metadata", HMeta 7);
   ("image_cutouts", ex_x_pix 1); ("weight_cutouts", ex_x_pix 2); ("seg_cutouts", ex_x_pix 3); ("bmask_cutouts", ex_x_pix 5);
   ("noise_cutouts", ex_x_pix 4); ("redshifts", HOther 9)]%string.
Definition ex_n_nobmask : list (hdu Z) := filter (fun h => negb (String.eqb (fst h) "bmask_cutouts")) ex_n.
Definition ex_n_old : list (hdu Z) := [("object_data", HObj [ex_n_obj 1 0 0])]%string.
