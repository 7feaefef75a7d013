(** Property theorems on writes that fail: C116. *)
From Coq Require Import String.
From Verif Require Import Base Img Types MakerLayout MakerWrite MakerFile MakerFail Meta SpecMeta Reader ExampleData SpecFail.
From Verif Require FailLemmas FailLemmas2.
Open Scope Z_scope.

(** * C116 *)

(** The second image has no weight map.  The exception passes, the old file is gone,
    and a file that can be opened and passes validation has as segmentation maps
    whatever the disk held. *)
Theorem C116_incomplete_refuted : exists m e, ex_maker ex_fail_rows None = Ok m /\
  forall psf_info junk pjunk path d, exists f,
    write_on_disk m psf_info junk pjunk path d = (put d path (f, false), Some e) /\
    validate_meds (names_of f [] documented_info_columns false) = Ok [] /\
    get_cutout f 0 0 TSeg = Ok (mkImg 4 4 (map (junk TSeg) (zrange 16))).
Proof.
  exists ex_fail_maker, TypeError. split; [reflexivity|]. intros psf_info junk pjunk path d.
  eexists. split; [vm_compute; reflexivity|].
  split; vm_compute; reflexivity.
Qed.
Print Assumptions C116_incomplete_refuted.

(** Other files are never touched. *)
Theorem C116_other_files : forall m psf_info junk pjunk path d p, p <> path ->
  fst (write_on_disk m psf_info junk pjunk path d) p = d p.
Proof. exact FailLemmas.other_files. Qed.
Print Assumptions C116_other_files.

(** No exception exactly if the write succeeds, and then the file is the complete one. *)
Theorem C116_complete_partial : forall m psf_info junk pjunk path d e,
  snd (write_on_disk m psf_info junk pjunk path d) = e ->
  match e with
  | None => exists m' f, write m junk pjunk = Ok (m', f) /\
      fst (write_on_disk m psf_info junk pjunk path d) path = Some (f, psf_info)
  | Some e => write m junk pjunk = Err e
  end.
Proof. exact FailLemmas.success. Qed.
Print Assumptions C116_complete_partial.

(** When the layout cannot be made the old file stays. *)
Theorem C116_layout_partial : forall m psf_info junk pjunk path d e,
  full_layout (mk_conf m) (mk_rows m) (mk_psf m) (mk_cat m) = Err e ->
  write_on_disk m psf_info junk pjunk path d = (d, Some e).
Proof. exact FailLemmas.layout_first. Qed.
Print Assumptions C116_layout_partial.

(** Otherwise the old file is replaced by one with the complete tables but psf_info,
    the complete mosaics of the types before the one that failed, and nothing written
    in the mosaics of the types after it. *)
Theorem C116_left_partial : forall m psf_info junk pjunk path d e cat total total_psf,
  NoDup (k_types (mk_conf m)) ->
  full_layout (mk_conf m) (mk_rows m) (mk_psf m) (mk_cat m) = Ok (cat, total, total_psf) ->
  snd (write_on_disk m psf_info junk pjunk path d) = Some e ->
  exists f n m' g, fst (write_on_disk m psf_info junk pjunk path d) path = Some (f, false) /\
    m_cat f = cat /\ m_info f = map ir_info (mk_rows m) /\ map fst (m_ext f) = k_types (mk_conf m) /\
    write (first_types m n) junk pjunk = Ok (m', g) /\
    (forall t, In t (firstn n (k_types (mk_conf m))) -> ext_find (m_ext f) t = ext_find (m_ext g) t) /\
    (forall t, In t (skipn (S n) (k_types (mk_conf m))) ->
       ext_find (m_ext f) t = Some (map (junk t) (zrange total))) /\
    ((n < length (k_types (mk_conf m)))%nat /\ write (first_types m (S n)) junk pjunk = Err e \/
     n = length (k_types (mk_conf m)) /\ mk_psf m <> None).
Proof. exact FailLemmas2.left_behind. Qed.
Print Assumptions C116_left_partial.

(** The weight of the second image is missing, a psf is not as large as announced, and
    a file over an older one. *)
Example C116_example :
  (let* m := ex_maker ex_fail_rows (Some ex_psfs) in
   let '(d, e) := write_on_disk m true ex_junk (fun _ => 5%Q) "a.fits" ex_empty_disk in
   match d "a.fits"%string, d "b.fits"%string with
   | Some (f, pi), None => let* im := get_cutout f 1 0 TImage in let* sg := get_cutout f 1 0 TSeg in
       Ok (pi, e, dat im, firstn 2 (dat sg), option_map (firstn 1) (m_psf f))
   | _, _ => Err KeyError
   end) = Ok (false, Some TypeError,
              [0; 0; 0; 0;  0; 2000; 2002; 2004;  0; 2040; 2042; 2044;  0; 2080; 2082; 2084],
              [-125; -126], Some [5])%Q /\
  (let* m := ex_maker ex_rows (Some [ex_psf 2; ex_liar 2; ex_psf 1]) in
   let '(d, e) := write_on_disk m true ex_junk (fun _ => 5%Q) "a.fits" ex_empty_disk in
   match d "a.fits"%string with
   | Some (f, pi) => let* sg := get_cutout f 1 0 TSeg in Ok (pi, e, firstn 6 (dat sg))
   | _ => Err KeyError
   end) = Ok (false, Some ValueError, [0; 0; 0; 0; 0; 0])%Q /\
  (let* m := ex_maker ex_rows (Some ex_psfs) in
   let '(d, e) := write_on_disk m true ex_junk (fun _ => 5%Q) "a.fits"
     (fun _ => Some (mkMeds [] false PsfNone [] [] None, false)) in
   match d "a.fits"%string, d "b.fits"%string with
   | Some (f, pi), Some (g, _) => Ok (pi, e, zlen (m_cat f), zlen (m_cat g))
   | _, _ => Err KeyError
   end) = Ok (true, None, 3, 0).
Proof. split; [|split]; vm_compute; reflexivity. Qed.
