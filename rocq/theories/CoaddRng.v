(** The coadder with its random number generator, and a coadd maker used more
    than once.  Definitions only. *)
From Verif Require Import Base Img Types Reader MakerLayout MakerWrite MakerFile Composite Coadd.
Open Scope Z_scope.

(** meds/coadd.py 342 [self.rng], 787 [self.rng.normal(size=weight.shape)]: a
    generator is a stream of numbers, [g p] the number at position [p]; an array
    takes the next numbers in row major order.  [err w] is sqrt(1/w), line 786.
    [_make_noise_image] at position [p]; it is evaluated at pixels of [weight]
    only. *)
Definition noise_at (g : Z -> Q) (err : Q -> Q) (p : Z) (weight : img Q) (r k : Z) : Q :=
  match px weight r k with
  | Some w => (g (p + (r * nc weight + k))%Z * err w)%Q
  | None => 0%Q
  end.
Definition with_noise (o : oracle) (nz : Z -> img Q -> Z -> Z -> Q) : oracle :=
  mkOracle (or_reject o) (or_psf o) nz (or_interp o) (or_coadd o).

(** Numbers drawn for observations: one for each pixel, meds/coadd.py 769, 776. *)
Definition drawn (l : list obs) : Z := Coadd.zsum (map (fun ob => nr (ob_weight ob) * nc (ob_weight ob)) l).

(** meds/coadd.py 497-602: the body of the loop with the position in the stream.
    Numbers are drawn for a cutout when it is kept (line 589), not otherwise.
    The psf code of a sub class is taken to draw none. *)
Definition obslist_step_r (c : cconf) (o : oracle) (g : Z -> Q) (err : Q -> Q) (f : medsfile) (iobj : Z)
  (ims wts segs : list (img Q)) (bms : list (img Z)) (st : (list obs * list Z) * Z) (i : Z)
  : res ((list obs * list Z) * Z) :=
  let '(l, p) := st in
  let* l' := obslist_step c (with_noise o (fun _ => noise_at g err p)) f iobj ims wts segs bms l i in
  Ok (l', p + drawn (skipn (length (fst l)) (fst l'))).

(** meds/coadd.py 449-602 [_get_obslist], as [get_obslist]. *)
Definition get_obslist_r (c : cconf) (o : oracle) (g : Z -> Q) (err : Q -> Q) (f : medsfile) (p iobj : Z)
  : res (list obs * option (list Z) * Z) :=
  let* ims := get_cutout_list f iobj TImage in
  if zlen ims =? 1 then Ok ([], None, p)
  else
    let* wts := get_cutout_list f iobj TWeight in
    let* bms := get_cutout_list f iobj TBmask in
    let ims := tl ims in
    let wts := tl wts in
    let bms := map (imap qtrunc) (tl bms) in
    let* wts := if c_reject c then or_reject o ims wts else Ok wts in
    let ncutout := zlen ims in
    let* segs := mapM (fun i => interpolate_coadd_seg f iobj (i + 1)) (zrange ncutout) in
    let* st := foldM (obslist_step_r c o g err f iobj ims wts segs bms) (zrange ncutout)
                 (([], map (fun _ => 0) (zrange ncutout)), p) in
    Ok (fst (fst st), Some (snd (fst st)), snd st).

(** meds/coadd.py 350-391 [get_coadd_obs], as in Coadd. *)
Definition get_coadd_obs_r (c : cconf) (o : oracle) (g : Z -> Q) (err : Q -> Q) (f : medsfile) (jmatrix : mat) (p iobj : Z)
  : res (option cobs * Z * Z) :=
  let* l := get_obslist_r c o g err f p iobj in
  let '(obslist, imflags, p') := l in
  match obslist with
  | [] => Ok (None, Z.lor 0 NO_GOOD_CUTOUTS, p')
  | ob0 :: _ =>
    let bmask := imap (fun b => b * 0) (ob_bmask ob0) in
    let* ormask := foldM (fun m ob => img_lor m (ob_bmask ob)) obslist (imap (fun b => b * 0) (ob_bmask ob0)) in
    let* r := or_coadd o obslist in
    let '(im, wt, noise, jac, psf, prow, pcol) := r in
    let* seg := interpolate_coadd_seg_image f iobj jmatrix None in
    let* fl := match imflags with Some l => Ok l | None => Err TypeError end in
    Ok (Some (mkCobs im wt seg bmask ormask noise jac psf prow pcol (zlen obslist) fl), 0, p')
  end.

(** Calls of [get_coadd_obs] one after another on one coadder: results, and the
    position afterwards. *)
Fixpoint coadd_calls (cs : Z -> Z -> res (option cobs * Z * Z)) (p : Z) (js : list Z) : res (list (option cobs * Z) * Z) :=
  match js with
  | [] => Ok ([], p)
  | j :: js' => let* x := cs p j in
                let* l := coadd_calls cs (snd x) js' in Ok (fst x :: fst l, snd l)
  end.

(** meds/coadd.py 137-184 with a coadder that has a position. *)
Definition write_object_cutouts_r (types : list ctype) (cs : Z -> Z -> res (option cobs * Z * Z))
  (st : wstate * Z) (iobj : Z) : res (wstate * Z) :=
  let* x := cs (snd st) iobj in
  let* st' := write_object_cutouts types (fun _ => Ok (fst x)) (fst st) iobj in
  Ok (st', snd x).

(** The maker after a call: the rows of obj_data and the position of the coadder's
    generator. *)
Record cmaker : Type := mkCmaker { cm_rows : list crow; cm_pos : Z }.

(** meds/coadd.py 64-87: the constructor, with a new coadder. *)
Definition coadd_maker (f : medsfile) : res cmaker := let* rows := coadd_obj_data f in Ok (mkCmaker rows 0).

(** meds/coadd.py 97-135 [write]: obj_data is the attribute of the maker, filled
    in during the writing (line 115) and not set anew by a later call. *)
Definition coadd_write (f : medsfile) (config_types : list ctype) (total_psf : Z)
  (cs : Z -> Z -> res (option cobs * Z * Z)) (junk : ctype -> Z -> Q) (pjunk : Z -> Q)
  (mk : cmaker) (obj_range : option (Z * Z)) : res (cmaker * medsfile) :=
  let types := add_types config_types in
  let total_pixels := Coadd.zsum (map (fun o => o_box o ^ 2) (m_cat f)) in
  let '(a, b) := match obj_range with Some r => r | None => (0, zlen (m_cat f)) end in
  let* st := foldM (write_object_cutouts_r types cs) (zrange2 a b)
    (mkWstate (cm_rows mk) (reserve types total_pixels junk) (map pjunk (zrange total_psf)) 0 0 0 0, cm_pos mk) in
  Ok (mkCmaker (ws_rows (fst st)) (snd st),
      mkMeds (map cr_obj (ws_rows (fst st))) true PsfBoxObj (firstn 1 (m_info f)) (ws_ext (fst st)) (Some (ws_psf (fst st)))).

(** Several calls of [write] on one maker: the files, each with the rows of its catalog. *)
Fixpoint coadd_writes (f : medsfile) (config_types : list ctype) (total_psf : Z)
  (cs : Z -> Z -> res (option cobs * Z * Z)) (junk : ctype -> Z -> Q) (pjunk : Z -> Q)
  (mk : cmaker) (rgs : list (option (Z * Z))) : res (cmaker * list medsfile) :=
  match rgs with
  | [] => Ok (mk, [])
  | rg :: rgs' =>
    let* x := coadd_write f config_types total_psf cs junk pjunk mk rg in
    let* y := coadd_writes f config_types total_psf cs junk pjunk (fst x) rgs' in
    Ok (fst y, snd x :: snd y)
  end.
