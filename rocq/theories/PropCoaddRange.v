(** C143: objects counted from the end. *)
From Verif Require Import Base Img Types Reader Composite Uberseg MakerWrite Coadd CoaddRange SpecFile SpecCoadd SpecChain2 SpecCoaddExt SpecCoaddRange ExampleData ExampleCoadd ExampleCoaddRange.
From Verif Require CoaddLemmas7 FromEndLemmas CoaddRangeLemmas2 CoaddRangeLemmas3.
Open Scope Z_scope.

(** In a file with no number column they get a number that is not the object's. *)
Theorem C143_number_refuted : exists f j, 0 <= j < zlen (m_cat f) /\ get_number f j = Ok (j + 1) /\
  exists n, get_number f (j - zlen (m_cat f)) = Ok n /\ n <= 0.
Proof. exact CoaddRangeLemmas3.number_refuted. Qed.
Print Assumptions C143_number_refuted.

(** Every index names an object and there is room for all of them, yet the file
    cannot be written. *)
Theorem C143_twice_refuted : exists f ct tp junk pjunk coadder rg x, stamp_shapes f coadder /\ counts_from_end f coadder /\ range_names f rg /\
  write_coadds_any f ct tp junk pjunk coadder None = Ok x /\ write_coadds_any f ct tp junk pjunk coadder rg = Err FitsError.
Proof. exact CoaddRangeLemmas3.twice_refuted. Qed.
Print Assumptions C143_twice_refuted.

Theorem C143_from_end_partial : forall f j, m_number_col f = true -> 0 <= j < zlen (m_cat f) -> same_answers f (j - zlen (m_cat f)) f j.
Proof. exact FromEndLemmas.end_answers. Qed.
Print Assumptions C143_from_end_partial.

Theorem C143_outside_partial : forall f i k fuel fast b t, ~ (- zlen (m_cat f) <= i < zlen (m_cat f)) ->
  refuses (get_cutout f i k t) /\ refuses (get_mosaic f i t) /\ refuses (get_cutout_list f i t) /\ refuses (get_psf f i k) /\ refuses (get_psf_list f i) /\
  refuses (get_jacobian f i k) /\ refuses (get_jacobian_matrix f i k) /\ refuses (get_jacobian_list f i) /\ refuses (get_cutout_rowcol f i k) /\ refuses (get_source_info f i k) /\
  refuses (get_cweight_cutout f i k b) /\ refuses (get_cseg_cutout f i k) /\ refuses (get_uberseg fuel f i k fast) /\ refuses (get_uberseg_list fuel f i fast) /\
  (m_number_col f = true -> refuses (get_number f i)).
Proof. exact CoaddRangeLemmas2.end_outside. Qed.
Print Assumptions C143_outside_partial.

Theorem C143_coadder_partial : forall c o f jm, m_number_col f = true -> counts_from_end f (get_coadd_obs c o f jm).
Proof. exact CoaddRangeLemmas2.coadder_end. Qed.
Print Assumptions C143_coadder_partial.

Theorem C143_pixels_partial : forall f ct tp junk pjunk coadder rg rows f' j co fl, stamp_shapes f coadder -> counts_from_end f coadder ->
  write_coadds_any f ct tp junk pjunk coadder rg = Ok (rows, f') -> named f rg j -> coadder j = Ok (Some co, fl) ->
  (forall t, In t ct \/ t = TOrmask \/ t = TNoise -> get_cutout f' j 0 t = Ok (coadd_plane co t)) /\ get_psf f' j 0 = Ok (co_psf co).
Proof. exact CoaddRangeLemmas2.any_pixels. Qed.
Print Assumptions C143_pixels_partial.

Theorem C143_rows_partial : forall f ct tp junk pjunk coadder rg rows f', stamp_shapes f coadder -> counts_from_end f coadder ->
  write_coadds_any f ct tp junk pjunk coadder rg = Ok (rows, f') ->
  range_names f rg /\ m_cat f' = map cr_obj rows /\ zlen rows = zlen (m_cat f) /\
  forall j r, zget rows j = Some r ->
  exists o, zget (m_cat f) j = Some o /\ o_box (cr_obj r) = o_box o /\ o_id (cr_obj r) = o_id o /\ o_number (cr_obj r) = o_number o /\
     ((exists co fl, named f rg j /\ coadder j = Ok (Some co, fl) /\ o_ncut (cr_obj r) = 1 /\ cr_coadd_flags r = fl /\ cr_ncoadd r = co_ncoadd co) \/
      (exists fl, named f rg j /\ coadder j = Ok (None, fl) /\ o_ncut (cr_obj r) = 0 /\ cr_coadd_flags r = fl /\ cr_ncoadd r = 0) \/
      (~ named f rg j /\ o_ncut (cr_obj r) = 0 /\ cr_coadd_flags r = 0 /\ cr_ncoadd r = 0)).
Proof. exact CoaddRangeLemmas2.any_rows. Qed.
Print Assumptions C143_rows_partial.

Theorem C143_written_partial : forall f ct tp junk pjunk coadder rg, stamp_shapes f coadder -> counts_from_end f coadder -> range_names f rg -> named_once f rg ->
  m_cat f <> [] -> m_number_col f = true -> Forall (fun o => o_slots o <> []) (m_cat f) ->
  (forall j, named f rg j -> exists x fl, coadder j = Ok (x, fl) /\
     forall co o, x = Some co -> zget (m_cat f) j = Some o -> zlen (co_imflags co) <= o_ncut o - 1) ->
  psf_room f coadder rg tp ->
  exists rows f', write_coadds_any f ct tp junk pjunk coadder rg = Ok (rows, f').
Proof. exact CoaddRangeLemmas2.any_written. Qed.
Print Assumptions C143_written_partial.

(** For ranges that start at a non-negative index this is the writer of C54. *)
Theorem C143_same_partial : forall f ct tp junk pjunk coadder rg, range_from_zero rg ->
  write_coadds_any f ct tp junk pjunk coadder rg = write_coadds f ct tp junk pjunk coadder rg.
Proof. exact CoaddRangeLemmas2.any_same. Qed.
Print Assumptions C143_same_partial.

(** Objects 1, 2 (which fails), 3 and 0, in this order; all of -5 to -3 is refused. *)
Example C143_example :
  (let* f := ex_cfile in Ok (m_number_col f, zlen (m_cat f))) = Ok (true, 4) /\
  (forall f, stamp_shapes f (ex_coadder f)) /\ (forall f, m_number_col f = true -> counts_from_end f (ex_coadder f)) /\
  (let* f := ex_cfile in let* x := ex_range f (Some (-3, 1)) in
   let* im := get_cutout (snd x) 0 0 TImage in let* im' := get_cutout (snd x) (-4) 0 TImage in
   Ok (map (fun r => (o_ncut (cr_obj r), cr_coadd_flags r, map s_start (o_slots (cr_obj r)))) (fst x), forallb (fun p => Qeq_bool (fst p) (snd p)) (combine (dat im) (dat im'))))
  = Ok ([(1, 0, [32; -9999]); (1, 0, [0; -9999]); (0, 1, [-9999; -9999]); (1, 0, [16; -9999])], true) /\
  (let* f := ex_cfile in ex_range f (Some (-5, -2))) = Err IndexError.
Proof.
  split; [vm_compute; reflexivity|]. split.
  { intros f. apply CoaddRangeLemmas3.ex_shapes. }
  split; [intros f; apply CoaddRangeLemmas2.coadder_end|]. split; vm_compute; reflexivity.
Qed.
