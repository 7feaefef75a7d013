(** Example: a file of coadds of objects 1 to 3 of four, object 2 having failed. *)
From Verif Require Import Base Img Types Reader Extract MakerWrite Composite Coadd SpecCoadd ExampleData ExampleCoadd.
Open Scope Z_scope.

Definition ex_coadder (f : medsfile) : Z -> res (option cobs * Z) :=
  get_coadd_obs (ex_cconf [1; 2; 1073741824] [16] false false true 2 (1#3)) (ex_oracle 3) f (1#4, 0, 0, 1#4)%Q.
Definition ex_coadds : res (list crow * medsfile) :=
  let* f := ex_cfile in
  write_coadds f [TImage; TWeight; TSeg; TBmask] 40 ex_junk (fun _ => 0%Q) (ex_coadder f) (Some (1, 4)).
