(** Concrete catalogs for the examples beside the property theorems. *)
From Coq Require Import String.
From Verif Require Import Base Img Types MakerLayout MakerWrite MakerFile Coadd CatCols CatFile ExampleData ExampleCoadd.
Open Scope Z_scope.

(** Three rows: the required columns, one more number, one more array, a psf size. *)
Definition ex_cols (psf : bool) : ctable Z :=
  [mkCol "id" None [[11]; [12]; [13]]; mkCol "ra" None [[5]; [1]; [4]]; mkCol "flux" None [[70]; [80]; [90]];
   mkCol "box_size" None [[3]; [4]; [2]]; mkCol "dec" None [[4]; [1]; [6]];
   mkCol "shape" (Some 2) [[1; 2]; [3; 4]; [5; 6]]]%string
  ++ if psf then [mkCol "psf_row_size" (Some 4) [[1; 2; 3; 4]; [1; 2; 3; 4]; [1; 2; 3; 4]]]%string else [].

(** One image; two objects in it. *)
Definition ex_one_row : list imrow := firstn 1 ex_rows.
Definition ex_one : res medsfile :=
  make_meds ex_conf ex_types ex_one_row None (firstn 2 ex_objs) ex_junk (fun i => inject_Z (-5)).

(** Images without a coadd: the object is not in the first one. *)
Definition ex_nc_rows : list imrow :=
  [ mkImrow (mkImage (ex_wcs 5 5 100 100) 1) (ex_csrc 5 5 3000 (PFile (ex_segmap 5 5 0 0)) 0 0) 72 9;
    mkImrow (mkImage (ex_wcs 16 16 0 0) 1) (ex_csrc 16 16 1000 (PFile (ex_segmap 16 16 0 0)) 0 0) 70 7;
    mkImrow (mkImage (ex_wcs 12 12 0 0) 1) (ex_csrc 12 12 2000 (PFile (ex_segmap 12 12 0 0)) 0 0) 71 8 ].
Definition ex_nc_file : res medsfile :=
  make_meds (ex_conf_with (ex_lconf false false false false 1)) ex_types ex_nc_rows None [ex_obj 11 1 4 (11#2) (9#2)] ex_junk (fun i => 0%Q).
Definition ex_nc_coadd (f : medsfile) :=
  write_coadds f [TImage; TWeight; TSeg; TBmask] 40 ex_junk (fun _ => 0%Q)
    (get_coadd_obs (ex_cconf [1; 2; 1073741824] [16] false false true 2 (1#3)) (ex_oracle 3) f (1#4, 0, 0, 1#4)%Q) None.
