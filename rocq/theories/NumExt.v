(** The number extractor on the extensions of a file, and what it leaves when it raises;
    meds/number_extractor.py.  Definitions only.

    As in ExtractExt, one extension is written completely or not at all and header cards are
    not modelled.  [order] is the order in which fitsio returns the rows asked for, as in
    Extract. *)
From Coq Require Import String.
From Verif Require Import Base Img Types MakerFile Extract MakerFail Meta ExtractExt.
Open Scope Z_scope.

(** Rows, pixel ranges and psf ranges, meds/number_extractor.py 152-178.  [nc]: whether the
    catalogue has the column number. *)
Definition num_selection {X} (nc : bool) (pc : psf_cols) (order : list Z -> list Z) (f : list (hdu X)) (numbers : list Z)
  : res (list obj * list (Z * Z) * list (Z * Z)) :=
  let* rows := read_obj f in
  let* inds := get_inds (mkMeds rows nc pc [] [] None) numbers in
  let* obj_data := mapM (py_index rows) (order inds) in
  let* ranges := row_ranges obj_data in
  let* none := first_is_minus_one ranges in
  let* obj_data := if none then Ok obj_data else renumber obj_data 0 in
  match hfind f "psf" with
  | None => Ok (obj_data, ranges, [])
  | Some _ =>
    let* psf_ranges := psf_row_ranges pc obj_data in
    let* pnone := first_is_minus_one psf_ranges in
    let* obj_data := if pnone then Ok obj_data else renumber_psf pc obj_data 0 in
    Ok (obj_data, ranges, psf_ranges)
  end.

(** One mosaic, meds/number_extractor.py 197-226. *)
Definition num_cut {X} (f : list (hdu X)) (ranges : list (Z * Z)) (n : string) : res (list (hdu X)) :=
  let* m := read_pix f n in let* x := data_from_ranges ranges m in Ok [(n, HPix x)].
Definition num_cut_if_there {X} (f : list (hdu X)) (ranges : list (Z * Z)) (n : string) : res (list (hdu X)) :=
  match hfind f n with None => Ok [] | Some _ => num_cut f ranges n end.

(** The writes in turn, meds/number_extractor.py 180-226; bmask is not optional here and
    noise and ormask are not looked for. *)
Definition num_writes {X} (f : list (hdu X)) (sel : list obj * list (Z * Z) * list (Z * Z)) : list (res (list (hdu X))) :=
  let '(obj_data, ranges, psf_ranges) := sel in
  [Ok [("object_data"%string, HObj obj_data)];
   let* h := read_table f "image_info" in Ok [h];
   let* h := read_table f "metadata" in Ok [h]]
  ++ (if match ranges with (a, _) :: _ => a =? -1 | [] => false end
      then map (fun e => Ok [((ctype_name (fst e) ++ "_cutouts")%string, HPix (snd e))]) dummy_ext
      else [num_cut f ranges "image_cutouts";
            num_cut f ranges "weight_cutouts";
            num_cut f ranges "seg_cutouts";
            num_cut f ranges "bmask_cutouts";
            num_cut_if_there f psf_ranges "psf"]).

(** meds/number_extractor.py 145-226 [_extract] once both files are open: the new file, also
    after an exception. *)
Definition num_on_disk {X} (nc : bool) (pc : psf_cols) (order : list Z -> list Z) (f : list (hdu X)) (numbers : list Z)
  : run (list (hdu X)) :=
  match num_selection nc pc order f numbers with
  | Err e => ([], Some e)
  | Ok sel => loop (fun out w => step out (let* hs := w in Ok (out ++ hs))) (num_writes f sel) []
  end.

(** meds/number_extractor.py 33-49 and 145-147 [__init__]: [inp] the input file if it can be
    opened, [old] what was there under the name of the output before; what is there
    afterwards. *)
Definition num_extractor {X} (nc : bool) (pc : psf_cols) (order : list Z -> list Z) (inp : option (list (hdu X)))
  (old : option (list (hdu X))) (meds_file sub_file : string) (numbers : list Z) : run (option (list (hdu X))) :=
  match early_check (ByNumbers numbers) with
  | Err e => (old, Some e)
  | Ok _ =>
    match check_inputs meds_file sub_file (ByNumbers numbers) with
    | Err e => (old, Some e)
    | Ok _ =>
      match inp with
      | None => (old, Some FitsError)
      | Some f => let '(out, e) := num_on_disk nc pc order f (zsort numbers) in (Some out, e)
      end
    end
  end.
