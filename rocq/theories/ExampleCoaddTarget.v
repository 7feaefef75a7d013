(** Files for the examples on the target jacobian. *)
From Verif Require Import Base Img Types Reader MakerLayout MakerWrite MakerFile Composite Coadd CoaddTarget ExampleData ExampleCoadd.
Open Scope Z_scope.

(** A coadd, and two epochs with given jacobians that hold one object each. *)
Definition ex_jwcs (nrow ncol : Z) (d : Q) (j : Q * Q * Q * Q) : wcs :=
  mkWcs nrow ncol (fun ra _ => Qle_bool ra 100) (fun ra dec _ => (Qred (ra + d), Qred (dec + d))) (fun _ _ _ => j).
Definition ex_trows (j k : Q * Q * Q * Q) : list imrow :=
  [ mkImrow (mkImage (ex_jwcs 16 16 0 (1#4, 0, 0, 1#4)%Q) 1) (ex_csrc 16 16 1000 (PFile (ex_segmap 16 16 0 0)) 0 0) 70 7;
    mkImrow (mkImage (ex_jwcs 9 9 0 j) 1) (ex_csrc 9 9 2000 PBlank 0 0) 71 8;
    mkImrow (mkImage (ex_jwcs 9 9 (-7) k) 1) (ex_csrc 9 9 3000 PBlank 0 0) 72 9 ].
Definition ex_tobjs : list obj := [ ex_obj 11 1 6 5 5; ex_obj 12 2 6 12 12 ].
Definition ex_tfile (j k : Q * Q * Q * Q) (objs : list obj) : res medsfile :=
  make_meds ex_conf ex_types (ex_trows j k) None objs ex_junk (fun i => 0%Q).
Definition ex_tconf : cconf := ex_cconf [1; 2] [8] false true true 2 (1#4).
Definition ex_facts (r : res (option cobs * Z)) : res (option (list Q) * Z) :=
  let* x := r in Ok (option_map (fun c => dat (co_seg c)) (fst x), snd x).
(** Two objects on the first epoch, one on the second. *)
Definition ex_tobjs3 : list obj := [ ex_obj 11 1 6 5 5; ex_obj 12 2 6 12 12; ex_obj 13 3 4 4 6 ].
(** An object on the coadd only. *)
Definition ex_tobjs1 : list obj := [ ex_obj 14 4 4 12 3 ].
