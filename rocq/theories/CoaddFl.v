(** Model of the mask checks of meds/coadd.py and of the weights of the cutouts that are
    coadded, with floating point weights (rounding, infinities, NaN).  Definitions only.
    The bounds of the central region and the bit masks are those of Coadd.v; the weights
    of an Observation are doubles. *)
From Verif Require Import Base Img Types BoundsM MakerWrite Coadd Typed LayoutFl OutlierFl.
Open Scope Z_scope.

(** [wt <= 0.0] and [wt == 0.0]: false for NaN. *)
Definition fl_nonpos (x : fl) : bool := match x with Fin q => Qle_bool q 0 | Inf neg => neg | NaN => false end.
Definition fl_zero (x : fl) : bool := match x with Fin q => Qeq_bool q 0 | _ => false end.

(** meds/coadd.py 614-616, 737-740 *)
Definition pix_bad_fl (bad : option Z) (w : fl) (b : Z) : bool := fl_nonpos w || has_flag bad b.

(** Python's float / int. *)
Definition fdiv_int (x : fl) (n : Z) : res fl :=
  if n =? 0 then Err ZeroDivisionError
  else Ok match x, fround true (inject_Z n) with
          | Fin a, Fin b => fround true (a / b)
          | Fin _, Inf _ => Fin 0
          | _, _ => NaN
          end.

(** meds/coadd.py 613-631 [_get_mask_frac] *)
Definition get_mask_frac_fl (c : cconf) (bmask : img Z) (wt : img fl) : res fl :=
  let* logic := img_zip (pix_bad_fl (bad_flags c)) wt bmask in
  fdiv_int (fround true (inject_Z (zlen (filter (fun x => x) (dat logic))))) (zlen (dat bmask)).

(** meds/coadd.py 633-643 [_symmetrize_weight] *)
Definition symmetrize_weight_fl (wt : img fl) : res (img fl) :=
  if negb (nr wt =? nc wt) then Err AssertionError
  else let* wt_rot := rot90 wt in
       img_zip (fun x y => if fl_zero y then Fin 0 else x) wt wt_rot.

(** meds/coadd.py 660-679 [_central_region_is_masked] *)
Definition central_region_is_masked_fl (c : cconf) (bmask : img Z) (wt : img fl) : res bool :=
  if c_central_check c then
    let low := central_low c (nr wt) in
    let high := central_high c (nr wt) in
    let* w := sub2d wt low high low high in
    let* b := sub2d bmask low high low high in
    let* logic := img_zip (fun x y => fl_ltb (Fin 0) x && negb (has_flag (bad_flags c) y)) w b in
    Ok (negb (forallb (fun x => x) (dat logic)))
  else Ok false.

(** meds/coadd.py 681-706 [_ps_edge_pixels_are_masked] *)
Definition ps_edge_pixels_are_masked_fl (c : cconf) (bmask : img Z) (wt : img fl) : res bool :=
  if c_edge_check c then
    let* sides_bad := any_side fl_zero wt in
    if sides_bad then Ok true
    else match bad_flags c with
         | None => Ok false
         | Some _ => any_side (has_flag (bad_flags c)) bmask
         end
  else Err UnboundLocalError.

(** meds/coadd.py 508-540; [limit]: max_masked_frac. *)
Definition cutout_flag_fl (c : cconf) (limit : fl) (bmask : img Z) (wt : img fl) : res Z :=
  if hits_the_edge c bmask then Ok CUTOUT_HITS_EDGE
  else
    let* mask_frac := get_mask_frac_fl c bmask wt in
    if fl_ltb limit mask_frac then Ok CUTOUT_MASK_FRAC
    else
      let* central := central_region_is_masked_fl c bmask wt in
      if central then Ok CUTOUT_CENTRAL_MASKED
      else
        let* sides := ps_edge_pixels_are_masked_fl c bmask wt in
        if sides then Ok CUTOUT_FULL_EDGE_MASKED
        else if negb (existsb (fun w => fl_ltb (Fin 0) w) (dat wt)) then Ok CUTOUT_ALL_WEIGHT_ZERO
        else Ok 0.

(** meds/coadd.py 733-764: the weights after [_interp_bad_pixels], and the number of
    interpolated pixels. *)
Definition interp_weights_fl (c : cconf) (weight : img fl) (bmask : img Z) : res (img fl * Z) :=
  let* bad := img_zip (pix_bad_fl (bad_flags c)) weight bmask in
  let wbad := where_ (dat bad) in
  match wbad with
  | [] => Ok (weight, 0)
  | _ :: _ =>
    let wgood := where_ (map negb (dat bad)) in
    let* gw := take (dat weight) wgood in
    let* medwt := fl_median gw in
    let* wd := put_at (dat weight) wbad (map (fun _ => medwt) wbad) in
    Ok (mkImg (nr weight) (nc weight) wd, zlen wbad)
  end.

(** The weights of a cutout in meds/coadd.py 497-602: the flag of a cutout that is left
    out, or the weights it is coadded with. *)
Inductive epoch : Type := Left_out (flag : Z) | Used (wt : img fl).
Definition epoch_weights_fl (c : cconf) (limit : fl) (wt : img fl) (bmask : img Z) : res epoch :=
  let* wt := if c_symmetrize c then symmetrize_weight_fl wt else Ok wt in
  let* bmask := if c_symmetrize c then symmetrize_bmask c bmask else Ok bmask in
  let* flag := cutout_flag_fl c limit bmask wt in
  if negb (flag =? 0) then Ok (Left_out flag)
  else let* r := interp_weights_fl c wt bmask in Ok (Used (fst r)).
