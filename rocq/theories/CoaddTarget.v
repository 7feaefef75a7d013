(** The pixel grid of the coadds: the target jacobian is computed from the whole
    file when the coadder is made and used for every object. *)
From Verif Require Import Base Img Types Reader Composite Coadd.
Open Scope Z_scope.

(** meds/coadd.py 429-447 [_set_target_jacobian]; numpy's median of nothing is
    nan, here [None]. *)
Definition target_of (f : medsfile) : res (option mat) :=
  let* s := mapM (fun o => get_slot o 1) (filter (fun o => 1 <? o_ncut o) (m_cat f)) in
  match s with
  | [] => Ok None
  | _ :: _ =>
    let* a := qmedian (map s_dudrow s) in
    let* b := qmedian (map s_dudcol s) in
    let* d := qmedian (map s_dvdrow s) in
    let* e := qmedian (map s_dvdcol s) in
    Ok (Some (a, b, d, e))
  end.

(** meds/coadd.py 350-391 [get_coadd_obs] of a coadder made for [f], whose
    target (397-404) is handed to psc (369-371: the oracle depends on it) and to
    the interpolation of the seg map (393-395).  A target of nan that is used is
    an error here; in Python it gives positions without meaning. *)
Definition coadd_of (c : cconf) (o : option mat -> oracle) (f : medsfile) (iobj : Z) : res (option cobs * Z) :=
  let* t := target_of f in
  match t with
  | Some jmatrix => get_coadd_obs c (o t) f jmatrix iobj
  | None =>
    let* l := get_obslist c (o t) f iobj in
    match fst l with
    | [] => Ok (None, Z.lor 0 NO_GOOD_CUTOUTS)
    | _ :: _ => Err ValueError
    end
  end.
