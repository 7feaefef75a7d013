(** Concrete coadders for the examples beside the property theorems. *)
From Coq Require Import String.
From Verif Require Import Base Img Types Reader MakerLayout MakerWrite MakerFile Composite Coadd ExampleData.
Open Scope Z_scope.

Definition ex_cconf (bad edge : list Z) (sym central sides : bool) (size frac : Q) : cconf :=
  mkCconf (Some bad) (Some edge) true sym frac central size sides true.

(** Outlier rejection that zeroes the weight of pixel 0 of the last image, an
    interpolator that gives 5 everywhere, the sum of the first stamps as coadd. *)
Definition ex_reject (ims wts : list (img Q)) : res (list (img Q)) :=
  match rev wts with
  | [] => Ok []
  | w :: l => Ok (rev l ++ [mkImg (nr w) (nc w) (upd (dat w) 0 0%Q)])
  end.
Definition ex_oracle (psize : Z) : oracle :=
  mkOracle ex_reject (fun icut _ => Ok (tab2 psize psize (fun r c => inject_Z (icut + r + c))))
    (fun icut _ r c => inject_Z (icut + 10 * r + c))
    (fun _ _ bad => Ok (map (fun _ => 5%Q) bad))
    (fun l => match l with
              | [] => Err ValueError
              | ob :: _ => Ok (ob_image ob, ob_weight ob, ob_noise ob, ob_jac ob, ob_psf ob, 1#2, 1#2)%Q
              end).

(** Images whose masks carry single bits here and there. *)
Definition ex_bits (n m base : Z) (pos : Z) : img Z := tab2 n m (fun r c => if (r * m + c) mod 11 =? pos then base else 0).
Definition ex_csrc (n m base : Z) (seg : path Z) (bits pos : Z) : source :=
  mkSource true (PFile (ex_qimg n m base)) PBlank (PFile (ex_qimg n m (base + 1))) seg
    (PFile (ex_bits n m bits pos)) PBlank PBlank 1.
Definition ex_crows : list imrow :=
  [ mkImrow (mkImage (ex_wcs 16 16 0 0) 1) (ex_csrc 16 16 1000 (PFile (ex_segmap 16 16 0 0)) 0 0) 70 7;
    mkImrow (mkImage (ex_wcs 12 12 0 0) 1) (ex_csrc 12 12 2000 (PFile (ex_segmap 12 12 0 0)) 1 4) 71 8;
    mkImrow (mkImage (ex_wcs 9 8 0 0) 1) (ex_csrc 9 8 3000 PBlank 9 5) 72 9;
    mkImrow (mkImage (ex_wcs 12 12 0 0) 1) (ex_csrc 12 12 4000 PBlank 2 0) 73 10 ].
(** Three objects: in all images, in all but the third, in the coadd only. *)
Definition ex_cobjs : list obj :=
  [ ex_obj 11 1 4 (11#2) (9#2); ex_obj 12 2 3 9 (17#2); ex_obj 13 3 3 14 14; ex_obj 14 4 3 8 4 ].
Definition ex_cfile : res medsfile :=
  make_meds ex_conf ex_types ex_crows None ex_cobjs ex_junk (fun i => 0%Q).
