(** A coadder with a generator, for the examples beside the property theorems. *)
From Verif Require Import Base Img Types Reader MakerLayout MakerWrite MakerFile Composite Coadd CoaddRng ExampleData ExampleCoadd.
Open Scope Z_scope.

(** The stream 0, 1, 2, ... and errors of 1. *)
Definition ex_stream (p : Z) : Q := inject_Z p.
Definition ex_err (w : Q) : Q := 1%Q.
Definition ex_rconf : cconf := ex_cconf [1; 2; 1073741824] [16] false false true 2 (1#3).
Definition ex_coadder (f : medsfile) : Z -> Z -> res (option cobs * Z * Z) :=
  get_coadd_obs_r ex_rconf (ex_oracle 3) ex_stream ex_err f (1#4, 0, 0, 1#4)%Q.
Definition ex_write (f : medsfile) (mk : cmaker) (rg : option (Z * Z)) : res (cmaker * medsfile) :=
  coadd_write f [TImage; TWeight; TSeg; TBmask] 40 (ex_coadder f) ex_junk (fun _ => 0%Q) mk rg.
