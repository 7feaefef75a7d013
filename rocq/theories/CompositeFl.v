(** The composite accessors of class MEDS in double precision, meds/meds.py.
    Definitions only.  Centres and Jacobians are the doubles of the file; the inverse
    of the coadd's Jacobian is a parameter, since numpy leaves it to LAPACK. *)
From Verif Require Import Base Img Types Reader BoundsM MakerLayout Composite Single Typed LayoutFl.
Open Scope Z_scope.

(** 2x2 matrices of doubles. *)
Definition fmat : Type := (fl * fl * fl * fl)%type.
Definition fin_mat (m : mat) : fmat := let '(a, b, c, d) := m in (Fin a, Fin b, Fin c, Fin d).

(** [x.round()] of a double (a double again), and [.astype('i8')]. *)
Definition fl_rint (x : fl) : fl := match x with Fin q => Fin (inject_Z (qround q)) | _ => x end.
Definition fl_pixel (ub : fl -> Z) (x : fl) : Z := to_int ub true 64 (NF (fl_rint x)).

(** meds/meds.py 763-775 and 1003-1011 before rounding to a pixel: every operation
    rounds to a double. *)
Definition fl_position (jm cjinv : fmat) (cen coadd_cen : fl * fl) (r c : Z) : fl * fl :=
  let rowsrel := fsub true (fround true (inject_Z r)) (fst cen) in
  let colsrel := fsub true (fround true (inject_Z c)) (snd cen) in
  let '(j00, j01, j10, j11) := jm in
  let '(i00, i01, i10, i11) := cjinv in
  let u := fadd true (fmul true rowsrel j00) (fmul true colsrel j01) in
  let v := fadd true (fmul true rowsrel j10) (fmul true colsrel j11) in
  (fadd true (fadd true (fst coadd_cen) (fmul true u i00)) (fmul true v i01),
   fadd true (fadd true (snd coadd_cen) (fmul true u i10)) (fmul true v i11)).

(** meds/meds.py 763-780 and 1003-1017 *)
Definition to_coadd_fl (ub : fl -> Z) (jm cjinv : fmat) (cen coadd_cen : fl * fl) (nrow ncol r c : Z) : Z * Z :=
  let '(crow, ccol) := fl_position jm cjinv cen coadd_cen r c in
  (zclip (fl_pixel ub crow) 0 (nrow - 1), zclip (fl_pixel ub ccol) 0 (ncol - 1)).

Definition fin_pair (p : Q * Q) : fl * fl := (Fin (fst p), Fin (snd p)).

(** meds/meds.py 963-1031 [_make_composite_image]; [inv]: numpy.matrix.getI. *)
Definition make_composite_fl (ub : fl -> Z) (inv : mat -> res fmat) (f : medsfile) (iobj icutout : Z)
  (im coadd_seg : img Q) (restrict_to_seg : bool) : res (img Q) :=
  let* coadd_cen := get_cutout_rowcol f iobj 0 in
  let* cen := get_cutout_rowcol f iobj icutout in
  let* segid := px_wrap coadd_seg (qtrunc (fst coadd_cen)) (qtrunc (snd coadd_cen)) in
  if icutout =? 0 then
    tab2M (nr im) (nc im) (fun r c =>
      let* s := px_res coadd_seg r c in
      let* x := px_res im r c in
      Ok (if seg_logic restrict_to_seg segid s then 0%Q else x))
  else
    let* se_jacob := get_jacobian_matrix f iobj icutout in
    let* coadd_jacob := get_jacobian_matrix f iobj 0 in
    match inv coadd_jacob with
    | Err _ => tab2M (nr im) (nc im) (fun _ _ => Ok 0%Q)
    | Ok cjinv =>
      tab2M (nr im) (nc im) (fun r c =>
        let '(cr, cc) := to_coadd_fl ub (fin_mat se_jacob) cjinv (fin_pair cen) (fin_pair coadd_cen)
                           (nr coadd_seg) (nc coadd_seg) r c in
        let* s := px_res coadd_seg cr cc in
        let* x := px_res im r c in
        Ok (if seg_logic restrict_to_seg segid s then 0%Q else x))
    end.

(** meds/meds.py 360-385 [get_cweight_cutout], 543-566 [get_cseg_cutout] *)
Definition get_cweight_cutout_fl (ub : fl -> Z) (inv : mat -> res fmat) (f : medsfile) (iobj icutout : Z)
  (restrict_to_seg : bool) : res (img Q) :=
  let* wt := get_cutout f iobj icutout TWeight in
  let* coadd_seg := get_cutout f iobj 0 TSeg in
  make_composite_fl ub inv f iobj icutout wt coadd_seg restrict_to_seg.
Definition get_cseg_cutout_fl (ub : fl -> Z) (inv : mat -> res fmat) (f : medsfile) (iobj icutout : Z) : res (img Q) :=
  let* seg := get_cutout f iobj icutout TSeg in
  let* number := get_number f iobj in
  let seg := fill_with seg (inject_Z number) in
  let* coadd_seg := get_cutout f iobj 0 TSeg in
  make_composite_fl ub inv f iobj icutout seg coadd_seg false.

(** meds/meds.py 707-784 [interpolate_coadd_seg] with [_interpolate_coadd_seg_image] *)
Definition interpolate_coadd_seg_fl (ub : fl -> Z) (inv : mat -> res fmat) (f : medsfile) (iobj icutout : Z) : res (img Q) :=
  let* coadd_seg := get_cutout f iobj 0 TSeg in
  if icutout =? 0 then Ok coadd_seg
  else
    let* jmatrix := get_jacobian_matrix f iobj icutout in
    let* cen := get_cutout_rowcol f iobj icutout in
    let* coadd_jacob := get_jacobian_matrix f iobj 0 in
    let* coadd_cen := get_cutout_rowcol f iobj 0 in
    let* cjinv := inv coadd_jacob in
    tab2M (nr coadd_seg) (nc coadd_seg) (fun r c =>
      let '(cr, cc) := to_coadd_fl ub (fin_mat jmatrix) cjinv (fin_pair cen) (fin_pair coadd_cen)
                         (nr coadd_seg) (nc coadd_seg) r c in
      px_res coadd_seg cr cc).
