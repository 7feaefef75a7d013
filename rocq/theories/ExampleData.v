(** Concrete inputs for the examples beside the property theorems. *)
From Coq Require Import String.
From Verif Require Import Base Img Types MakerLayout MakerWrite MakerFile.
Open Scope Z_scope.

(** A wcs that shifts positions and has a fixed Jacobian; it accepts ra < 100. *)
Definition ex_wcs (nrow ncol : Z) (dr dc : Q) : wcs :=
  mkWcs nrow ncol (fun ra _ => Qle_bool ra 100)
    (fun ra dec _ => (Qred (ra + dc), Qred (dec + dr)))
    (fun x y _ => (1#4, 0, 0, 1#4)%Q).

Definition ex_qimg (n m base : Z) : img Q := tab2 n m (fun r c => inject_Z (base + 20 * r + c)).
Definition ex_zimg (n m base : Z) : img Z := tab2 n m (fun r c => base + 20 * r + c).

Definition ex_src (n m base : Z) (seg : path Z) : source :=
  mkSource true (PFile (ex_qimg n m base)) PBlank (PFile (ex_qimg n m (base + 1))) seg
    (PFile (ex_zimg n m 0)) (PFile (ex_zimg n m 3)) (PFile (ex_qimg n m 7)) 2.

(** A coadd and two images, the last without segmentation map. *)
Definition ex_rows : list imrow :=
  [ mkImrow (mkImage (ex_wcs 9 10 0 0) 1) (ex_src 9 10 1000 (PFile (ex_zimg 9 10 0))) 70 7;
    mkImrow (mkImage (ex_wcs 6 7 (-2) (-1)) 1) (ex_src 6 7 2000 (PFile (ex_zimg 6 7 5))) 71 8;
    mkImrow (mkImage (ex_wcs 5 5 (-3) (-4)) 1) (ex_src 5 5 3000 PBlank) 72 9 ].

Definition ex_obj (id num box : Z) (ra dec : Q) : obj :=
  mkObj id num box ra dec 0 0 0 0 0 0 0 [].

(** In all three images; near the corner of the coadd only; in two images. *)
Definition ex_objs : list obj :=
  [ ex_obj 11 1 3 (11#2) (9#2); ex_obj 12 2 4 (3#2) (5#4); ex_obj 13 3 2 4 (13#2) ].

Definition ex_lconf (coadd check force trim : bool) (buf : Q) : lconf :=
  mkLconf coadd check force trim buf None false false false false.
Definition ex_conf_with (l : lconf) : mconf :=
  mkMconf l (mkPconf false false false) (Some 4) [] false 2000 true.
Definition ex_conf : mconf := ex_conf_with (ex_lconf true true false false 1).

Definition ex_types : list string := ["weight"; "seg"; "image"; "bmask"]%string.
Definition ex_junk (t : ctype) (i : Z) : Q := inject_Z (-77 - i).

(** PSFs of different shapes, depending on the position. *)
Definition ex_psf (n : Z) : psfobj :=
  mkPsf (fun r c _ => let m := 1 + Qfloor r mod 3 in tab2 n m (fun i j => inject_Z (100 * n + 10 * i + j)))
        None (fun _ _ => (1#2, 1#2)%Q).
Definition ex_psfs : list psfobj := [ex_psf 2; ex_psf 3; ex_psf 1].

Definition ex_make (psf : option (list psfobj)) : res medsfile :=
  make_meds ex_conf ex_types ex_rows psf ex_objs ex_junk (fun i => inject_Z (-5)).

(** A coadd with two objects in its seg map, and an image rotated by 90 degrees. *)
Definition ex_segmap (n m : Z) (dr dc : Z) : img Z :=
  tab2 n m (fun r c => let r := r + dr in let c := c + dc in
    if (r <=? 4) && (c <=? 6) then 1 else if (5 <=? r) && (6 <=? c) then 2 else 0).
Definition ex_rotated : wcs :=
  mkWcs 6 7 (fun ra _ => Qle_bool ra 100) (fun ra dec _ => (Qred (ra - 1), Qred (dec - 2)))
    (fun x y _ => (0, 1#4, -1#4, 0)%Q).
Definition ex_seg_rows : list imrow :=
  [ mkImrow (mkImage (ex_wcs 9 10 0 0) 1) (ex_src 9 10 1000 (PFile (ex_segmap 9 10 0 0))) 70 7;
    mkImrow (mkImage ex_rotated 1) (ex_src 6 7 2000 (PFile (ex_segmap 6 7 2 1))) 71 8;
    mkImrow (mkImage (ex_wcs 9 10 0 0) 1) (ex_src 9 10 1000 PBlank) 70 7 ].
Definition ex_seg_make : res medsfile :=
  make_meds ex_conf ex_types ex_seg_rows None [ex_obj 11 1 4 (11#2) (9#2); ex_obj 12 2 2 4 (13#2)]
    ex_junk (fun i => inject_Z (-5)).

(** The same file with another seg map in the coadd: sky and object 2 only; sky only. *)
Definition ex_seg_rows_of (seg : img Z) : list imrow :=
  [ mkImrow (mkImage (ex_wcs 9 10 0 0) 1) (ex_src 9 10 1000 (PFile seg)) 70 7 ].
Definition ex_other_only : img Z := tab2 9 10 (fun r c => if (5 <=? r) && (6 <=? c) then 2 else 0).
Definition ex_own_only : img Z := tab2 9 10 (fun r c => if (3 <=? r) && (4 <=? c) then 1 else 0).
Definition ex_all_sky : img Z := tab2 9 10 (fun _ _ => 0).
Definition ex_seg_in : list obj := [ex_obj 11 1 4 (11#2) (9#2)].
Definition ex_seg_make_of (seg : img Z) : res medsfile :=
  make_meds ex_conf ex_types (ex_seg_rows_of seg) None ex_seg_in ex_junk (fun i => inject_Z (-5)).
Definition ex_two_objects : img Z :=
  tab2 9 10 (fun r c => if (r <=? 2) && (c <=? 4) then 1 else if (4 <=? r) && (5 <=? c) then 2 else 0).

(** Small files for the extractors: [n] objects without or with one cutout of box
    1 or 2, numbers 10, 20, ..., one mosaic per given type, one psf of one pixel
    per cutout. *)
Definition ex_slot (start pstart box : Z) : slot :=
  mkSlot 0 start 1 1 0 0 0 0 1 0 0 1 1 1 box 0 0 pstart.
Definition ex_small_cat : list obj :=
  [ set_slots (set_ncut (ex_obj 1 10 2 0 0) 1) [ex_slot 0 0 1];
    ex_obj 2 20 1 0 0;
    set_slots (set_ncut (ex_obj 3 30 1 0 0) 2) [ex_slot 4 1 1; ex_slot 5 2 1] ].
Definition ex_small (cols : psf_cols) (types : list ctype) : medsfile :=
  mkMeds ex_small_cat true cols [mkInfo 1 1 0 1]
    (map (fun t => (t, map (fun i => inject_Z (100 + i)) (zrange 6))) types)
    (match cols with PsfNone => None | _ => Some [7; 8; 9]%Q end).
