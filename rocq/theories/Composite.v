(** Model of the composite accessors of class MEDS, meds/meds.py.  Definitions only.
    Jacobians and centres are exact rationals; numpy's inverse of a 2x2 matrix is
    the exact inverse and raises LinAlgError exactly for determinant 0. *)
From Verif Require Import Base Img Types Reader BoundsM MakerLayout.
Open Scope Z_scope.

(** [x.round()]: nearest integer, halves to the even one. *)
Definition qround (x : Q) : Z :=
  let f := Qfloor x in
  let d := (x - inject_Z f)%Q in
  if qltb d (1#2) then f
  else if qltb (1#2) d then f + 1
  else if Z.even f then f else f + 1.

(** [x.clip(lo, hi)] for integers: minimum(maximum(x, lo), hi). *)
Definition zclip (x lo hi : Z) : Z := Z.min (Z.max x lo) hi.

(** 2x2 matrices ((a, b), (c, d)) as (a, b, c, d). *)
Definition mat : Type := Q * Q * Q * Q.
Definition mat_inv (m : mat) : res mat :=
  let '(a, b, c, d) := m in
  let det := (a * d - b * c)%Q in
  if Qeq_bool det 0 then Err LinAlgError
  else Ok (d / det, - b / det, - c / det, a / det)%Q.

(** [im[r, c]] with scalar indices: negative ones wrap. *)
Definition px_wrap {A} (im : img A) (r c : Z) : res A :=
  let r' := if r <? 0 then r + nr im else r in
  let c' := if c <? 0 then c + nc im else c in
  px_res im r' c'.

(** The mapping of a pixel of an SE cutout to a coadd pixel: meds/meds.py 763-780
    and 1003-1017. *)
Definition to_coadd (jm cjinv : mat) (cen coadd_cen : Q * Q) (nrow ncol r c : Z) : Z * Z :=
  let rowsrel := (inject_Z r - fst cen)%Q in
  let colsrel := (inject_Z c - snd cen)%Q in
  let '(j00, j01, j10, j11) := jm in
  let '(i00, i01, i10, i11) := cjinv in
  let u := (rowsrel * j00 + colsrel * j01)%Q in
  let v := (rowsrel * j10 + colsrel * j11)%Q in
  let crow := (fst coadd_cen + u * i00 + v * i01)%Q in
  let ccol := (snd coadd_cen + u * i10 + v * i11)%Q in
  (zclip (qround crow) 0 (nrow - 1), zclip (qround ccol) 0 (ncol - 1)).

(** The pixel is masked: meds/meds.py 983-985, 1019-1021. *)
Definition seg_logic (restrict_to_seg : bool) (segid s : Q) : bool :=
  let logic := negb (Qeq_bool s segid) in
  if restrict_to_seg then logic else logic && negb (Qeq_bool s 0).

(** meds/meds.py 963-1031 [_make_composite_image].  Coadd seg map and image have
    the same shape (the box of the object); for icutout 0 a pixel outside the
    coadd seg map is an IndexError here. *)
Definition make_composite_image (f : medsfile) (iobj icutout : Z) (im coadd_seg : img Q)
  (restrict_to_seg : bool) : res (img Q) :=
  let* coadd_cen := get_cutout_rowcol f iobj 0 in
  let* cen := get_cutout_rowcol f iobj icutout in
  let* segid := px_wrap coadd_seg (qtrunc (fst coadd_cen)) (qtrunc (snd coadd_cen)) in
  if icutout =? 0 then
    tab2M (nr im) (nc im) (fun r c =>
      let* s := px_res coadd_seg r c in
      let* x := px_res im r c in
      Ok (if seg_logic restrict_to_seg segid s then 0%Q else x))
  else
    let* se_jacob := get_jacobian_matrix f iobj icutout in
    let* coadd_jacob := get_jacobian_matrix f iobj 0 in
    match mat_inv coadd_jacob with
    | Err _ => tab2M (nr im) (nc im) (fun _ _ => Ok 0%Q)
    | Ok cjinv =>
      tab2M (nr im) (nc im) (fun r c =>
        let '(cr, cc) := to_coadd se_jacob cjinv cen coadd_cen (nr coadd_seg) (nc coadd_seg) r c in
        let* s := px_res coadd_seg cr cc in
        let* x := px_res im r c in
        Ok (if seg_logic restrict_to_seg segid s then 0%Q else x))
    end.

(** meds/meds.py 360-385 [get_cweight_cutout] *)
Definition get_cweight_cutout (f : medsfile) (iobj icutout : Z) (restrict_to_seg : bool) : res (img Q) :=
  let* wt := get_cutout f iobj icutout TWeight in
  let* coadd_seg := get_cutout f iobj 0 TSeg in
  make_composite_image f iobj icutout wt coadd_seg restrict_to_seg.

(** The in-place loop over the views of split_mosaic: meds/meds.py 411-416,
    592-596.  The views are read and written through the mosaic. *)
Definition inplace_blocks (g : Z -> img Q -> res (img Q)) (mosaic : img Q) : res (img Q) :=
  let b := nc mosaic in
  if b =? 0 then Err ZeroDivisionError
  else foldM (fun mosaic k =>
         let* wt := sub2d mosaic (k * b) ((k + 1) * b) 0 b in
         let* cwt := g k wt in
         paste mosaic (k * b) ((k + 1) * b) 0 b cwt) (zrange (nr mosaic / b)) mosaic.

(** meds/meds.py 387-417 [get_cweight_mosaic] *)
Definition get_cweight_mosaic (f : medsfile) (iobj : Z) (restrict_to_seg : bool) : res (img Q) :=
  let* wtmosaic := get_mosaic f iobj TWeight in
  let* coadd_seg := get_cutout f iobj 0 TSeg in
  inplace_blocks (fun k wt => make_composite_image f iobj k wt coadd_seg restrict_to_seg) wtmosaic.

(** meds/meds.py 419-443 [get_cweight_cutout_list] *)
Definition get_cweight_cutout_list (f : medsfile) (iobj : Z) (restrict_to_seg : bool) : res (list (img Q)) :=
  let* m := get_cweight_mosaic f iobj restrict_to_seg in
  split_mosaic m.

(** [seg[:, :] = number] *)
Definition fill_with (im : img Q) (v : Q) : img Q := imap (fun _ => v) im.

(** meds/meds.py 543-566 [get_cseg_cutout] *)
Definition get_cseg_cutout (f : medsfile) (iobj icutout : Z) : res (img Q) :=
  let* seg := get_cutout f iobj icutout TSeg in
  let* number := get_number f iobj in
  let seg := fill_with seg (inject_Z number) in
  let* coadd_seg := get_cutout f iobj 0 TSeg in
  make_composite_image f iobj icutout seg coadd_seg false.

(** meds/meds.py 568-597 [get_cseg_mosaic] *)
Definition get_cseg_mosaic (f : medsfile) (iobj : Z) : res (img Q) :=
  let* segmosaic := get_mosaic f iobj TSeg in
  let* number := get_number f iobj in
  let segmosaic := fill_with segmosaic (inject_Z number) in
  let* coadd_seg := get_cutout f iobj 0 TSeg in
  inplace_blocks (fun k seg => make_composite_image f iobj k seg coadd_seg false) segmosaic.

(** meds/meds.py 599-620 [get_cseg_cutout_list] *)
Definition get_cseg_cutout_list (f : medsfile) (iobj : Z) : res (list (img Q)) :=
  let* m := get_cseg_mosaic f iobj in
  split_mosaic m.

(** meds/meds.py 736-784 [_interpolate_coadd_seg_image]; [cen] None: the
    geometric centre of the stamp. *)
Definition interpolate_coadd_seg_image (f : medsfile) (iobj : Z) (jmatrix : mat) (cen : option (Q * Q))
  : res (img Q) :=
  let* coadd_seg := get_cutout f iobj 0 TSeg in
  let cen := match cen with
             | Some c => c
             | None => ((inject_Z (nr coadd_seg) - 1) / 2, (inject_Z (nc coadd_seg) - 1) / 2)%Q end in
  let* coadd_jacob := get_jacobian_matrix f iobj 0 in
  let* coadd_cen := get_cutout_rowcol f iobj 0 in
  let* cjinv := mat_inv coadd_jacob in
  tab2M (nr coadd_seg) (nc coadd_seg) (fun r c =>
    let '(cr, cc) := to_coadd jmatrix cjinv cen coadd_cen (nr coadd_seg) (nc coadd_seg) r c in
    px_res coadd_seg cr cc).

(** meds/meds.py 707-734 [interpolate_coadd_seg] *)
Definition interpolate_coadd_seg (f : medsfile) (iobj icutout : Z) : res (img Q) :=
  let* coadd_seg := get_cutout f iobj 0 TSeg in
  if icutout =? 0 then Ok coadd_seg
  else
    let* jmatrix := get_jacobian_matrix f iobj icutout in
    let* cen := get_cutout_rowcol f iobj icutout in
    interpolate_coadd_seg_image f iobj jmatrix (Some cen).

(** meds/meds.py 683-705 [interpolate_coadd_seg_mosaic] *)
Definition interpolate_coadd_seg_mosaic (f : medsfile) (iobj : Z) : res (img Q) :=
  let* seg_mosaic := get_mosaic f iobj TSeg in
  inplace_blocks (fun k seg => if k =? 0 then Ok seg else interpolate_coadd_seg f iobj k) seg_mosaic.

(** [self['number'][iobj]]: no such column raises ValueError. *)
Definition number_col (f : medsfile) (iobj : Z) : res Z :=
  if m_number_col f then let* o := py_index (m_cat f) iobj in Ok (o_number o) else Err ValueError.

(** meds/meds.py 622-681 [get_cseg_weight]; seg and weight cutouts have the same shape. *)
Definition other_seg (number s : Q) : bool := negb (Qeq_bool s 0) && negb (Qeq_bool s number).
Definition positions (h w : Z) : list (Z * Z) := map (fun p => (p / w, p mod w)) (zrange (h * w)).
Definition get_cseg_weight (f : medsfile) (iobj icutout : Z) (use_canonical_cen : bool) : res (img Q) :=
  let* seg := get_cutout f iobj icutout TSeg in
  let* weight := get_cutout f iobj icutout TWeight in
  let* number := number_col f iobj in
  let wother := filter (fun p => match px seg (fst p) (snd p) with
                                 | Some s => other_seg (inject_Z number) s | None => false end)
                       (positions (nr seg) (nc seg)) in
  match wother with
  | [] => Ok weight
  | _ :: _ =>
    let* cen := if use_canonical_cen
                then Ok ((inject_Z (nr weight) - 1) / 2, (inject_Z (nc weight) - 1) / 2)%Q
                else get_cutout_rowcol f iobj icutout in
    let r2 := fun (r c : Z) => ((inject_Z r - fst cen) * (inject_Z r - fst cen)
                                + (inject_Z c - snd cen) * (inject_Z c - snd cen))%Q in
    let* minr2 := qmin (map (fun p => r2 (fst p) (snd p)) wother) in
    tab2M (nr weight) (nc weight) (fun r c =>
      let* w := px_res weight r c in
      Ok (if qltb (r2 r c) minr2 then w else 0%Q))
  end.
