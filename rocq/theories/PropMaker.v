(** Properties of files written by the maker (C01-C24, C68). *)
From Coq Require Import String Sorted Lia.
From Verif Require Import Base Img Types Reader MakerLayout MakerWrite MakerFile
  SpecTiles SpecLayout SpecFile ExampleData ExampleMaker.
From Verif Require BaseLemmas MakerLemmas MakerLemmas2 MakerLemmas3 MakerLemmas4 MakerLemmas5 MakerLemmas6 PsfLemmas ReadLemmas ShapeLemmas.
Open Scope Z_scope.

(** * C01 *)
Theorem C01_cutouts_tile_mosaics : forall k types rows psf input junk pjunk f,
  make_meds k types rows psf input junk pjunk = Ok f ->
  exists total, tiles 0 (cut_ranges (m_cat f)) total /\
    forall t m, ext_find (m_ext f) t = Some m -> zlen m = total.
Proof. exact MakerLemmas.written_tiles. Qed.
Print Assumptions C01_cutouts_tile_mosaics.

Theorem C01_pixel_count_check_never_fails : forall cat,
  Forall (fun o => 0 <= o_ncut o <= zlen (o_slots o)) cat ->
  exists cat' total, set_start_rows cat = Ok (cat', total) /\ tiles 0 (cut_ranges cat') total.
Proof. exact MakerLemmas6.start_rows_never_fail. Qed.
Print Assumptions C01_pixel_count_check_never_fails.

Example C01_example : exists f, ex_make None = Ok f /\
  cut_ranges (m_cat f) = [(0, 16); (16, 32); (32, 48); (48, 64); (64, 68); (68, 72)] /\
  forall m, ext_find (m_ext f) TSeg = Some m -> zlen m = 72.
Proof. eexists. split; [vm_compute; reflexivity|]. split; [vm_compute; reflexivity|]. intros m E. vm_compute in E. inversion E. reflexivity. Qed.

(** * C02 *)
Theorem C02_write_then_read : forall k types rows psf input junk pjunk f,
  Forall (fun o => 1 <= o_box o) input -> Forall (fun r => source_ok (ir_src r)) rows ->
  make_meds k types rows psf input junk pjunk = Ok f ->
  forall iobj icut o s t v row,
    cutout_at f iobj icut o s -> In t (map fst (m_ext f)) -> fill_value t = Some v ->
    zget rows (s_file s) = Some row -> has_file (ir_src row) t ->
    exists im, calibrated (k_unusable k) (ir_src row) t im /\
      get_cutout f iobj icut t = Ok (crop v im (s_osr s) (s_osc s) (o_box o)).
Proof. exact MakerLemmas.written_cutout. Qed.
Print Assumptions C02_write_then_read.

(** The second cutout of object 0 and the hypotheses for its weight. *)
Example C02_hypotheses_example : Forall (fun o => 1 <= o_box o) ex_objs /\ Forall (fun r => source_ok (ir_src r)) ex_rows /\
  exists f o s row, ex_make None = Ok f /\ cutout_at f 0 1 o s /\ In TWeight (map fst (m_ext f)) /\ fill_value TWeight = Some 0%Q /\
    zget ex_rows (s_file s) = Some row /\ s_file s = 1 /\ has_file (ir_src row) TWeight.
Proof.
  split; [exact ex_objs_boxes|]. split; [exact ex_rows_ok|]. do 4 eexists. split; [vm_compute; reflexivity|].
  split; [split; [vm_compute; reflexivity|split; [vm_compute; split; [discriminate|reflexivity]|vm_compute; reflexivity]]|].
  split; [vm_compute; tauto|]. split; [reflexivity|]. split; [vm_compute; reflexivity|]. split; [reflexivity|]. eexists. reflexivity.
Qed.

(** An object at the corner of the coadd: first row and column outside. *)
Example C02_example : exists f, ex_make None = Ok f /\
  get_cutout f 1 0 TImage = Ok (mkImg 4 4
    [0; 0; 0; 0;  0; 2000; 2002; 2004;  0; 2040; 2042; 2044;  0; 2080; 2082; 2084]%Q) /\
  Forall (fun o => 1 <= o_box o) ex_objs /\ has_file (ir_src (nth 0 ex_rows (mkImrow (mkImage (ex_wcs 0 0 0 0) 0) (ex_src 0 0 0 PBlank) 0 0))) TImage.
Proof.
  eexists. split; [vm_compute; reflexivity|]. split; [vm_compute; reflexivity|].
  split; [repeat constructor; vm_compute; discriminate|]. eexists. reflexivity.
Qed.

(** * C03 *)
Theorem C03_clipped_ranges : forall dim start bs o0 o1 b0 b1, 0 <= dim -> 0 <= bs ->
  get_clipped_boxes dim start bs = ((o0, o1), (b0, b1)) ->
  o1 - o0 = b1 - b0 /\ o0 = start + b0 /\ 0 <= o0 /\ o1 <= dim /\ 0 <= b0 /\ b1 <= bs /\
  (forall i, 0 <= i < bs -> (b0 <= i < b1 <-> 0 <= start + i < dim)).
Proof. exact MakerLemmas6.clipped_boxes_spec. Qed.
Print Assumptions C03_clipped_ranges.

Theorem C03_stamp_pixels : forall t v bs orow ocol im, 0 <= bs -> img_ok im -> fill_value t = Some v ->
  exists st, make_stamp (default_values t) bs orow ocol im = Ok st /\ img_ok st /\ nr st = bs /\ nc st = bs /\
    forall r c, 0 <= r < bs -> 0 <= c < bs ->
      px st r c = match px im (orow + r) (ocol + c) with Some a => Some a | None => Some v end.
Proof. exact MakerLemmas6.stamp_pixels. Qed.
Print Assumptions C03_stamp_pixels.

(** Box wider than the axis; box beyond the axis. *)
Example C03_example :
  get_clipped_boxes 3 (-2) 8 = ((0, 3), (2, 5)) /\ get_clipped_boxes 3 7 4 = ((7, 3), (0, -4)) /\
  make_stamp (default_values TBmask) 2 1 40 (ex_qimg 3 3 0)
  = Ok (mkImg 2 2 [1073741824; 1073741824; 1073741824; 1073741824]%Q).
Proof. vm_compute. repeat split. Qed.

(** * C04 *)
Theorem C04_mosaic_is_stack : forall k types rows psf input junk pjunk f,
  Forall (fun o => 1 <= o_box o) input ->
  make_meds k types rows psf input junk pjunk = Ok f ->
  forall iobj o t, zget (m_cat f) iobj = Some o -> 0 < o_ncut o -> In t (map fst (m_ext f)) ->
  exists mos l, get_mosaic f iobj t = Ok mos /\ img_ok mos /\
    nr mos = o_ncut o * o_box o /\ nc mos = o_box o /\
    get_cutout_list f iobj t = Ok l /\ zlen l = o_ncut o /\
    forall icut, 0 <= icut < o_ncut o ->
      exists im, get_cutout f iobj icut t = Ok im /\ zget l icut = Some im /\
        nr im = o_box o /\ nc im = o_box o /\
        forall r c, 0 <= r < o_box o -> 0 <= c < o_box o ->
          px im r c = px mos (icut * o_box o + r) c.
Proof. exact MakerLemmas.written_mosaic. Qed.
Print Assumptions C04_mosaic_is_stack.

Theorem C04_split_mosaic : forall A (mos : img A) (b n : Z), img_ok mos -> 0 < b -> 0 <= n ->
  nr mos = n * b -> nc mos = b ->
  exists l, split_mosaic mos = Ok l /\ zlen l = n /\
    forall k, 0 <= k < n -> exists im, zget l k = Some im /\ img_ok im /\ nr im = b /\ nc im = b /\
      forall r c, 0 <= r < b -> 0 <= c < b -> px im r c = px mos (k * b + r) c.
Proof. exact @ReadLemmas.split_mosaic_eq. Qed.
Print Assumptions C04_split_mosaic.

Example C04_example : exists f l, ex_make None = Ok f /\ get_cutout_list f 2 TSeg = Ok l /\
  l = [mkImg 2 2 [103; 104; 123; 124]%Q; mkImg 2 2 [67; 68; 87; 88]%Q].
Proof. eexists. eexists. split; [vm_compute; reflexivity|]. split; vm_compute; reflexivity. Qed.

(** * C05 *)
Theorem C05_mosaic_determined : forall k types1 types2 rows psf input j1 p1 j2 p2 f1 f2,
  Forall (fun o => 1 <= o_box o) input -> Forall (fun r => source_ok (ir_src r)) rows ->
  make_meds k types1 rows psf input j1 p1 = Ok f1 -> make_meds k types2 rows psf input j2 p2 = Ok f2 ->
  forall t, In t (map fst (m_ext f1)) -> In t (map fst (m_ext f2)) ->
  (forall iobj icut o s row, cutout_at f1 iobj icut o s -> zget rows (s_file s) = Some row ->
     has_file (ir_src row) t) ->
  ext_find (m_ext f1) t = ext_find (m_ext f2) t.
Proof. exact MakerLemmas2.determined. Qed.
Print Assumptions C05_mosaic_determined.

Example C05_hypotheses_example : Forall (fun o => 1 <= o_box o) ex_objs /\ Forall (fun r => source_ok (ir_src r)) ex_rows /\
  forall fid row, zget ex_rows fid = Some row -> has_file (ir_src row) TBmask.
Proof.
  split; [exact ex_objs_boxes|]. split; [exact ex_rows_ok|]. intros fid row H. apply BaseLemmas.zget_In in H.
  destruct H as [<-|[<-|[<-|[]]]]; eexists; reflexivity.
Qed.

Theorem C05_success_independent_of_disk : forall k types rows psf input j1 p1 j2 p2 f1,
  make_meds k types rows psf input j1 p1 = Ok f1 ->
  exists f2, make_meds k types rows psf input j2 p2 = Ok f2.
Proof. exact MakerLemmas2.junk_success. Qed.
Print Assumptions C05_success_independent_of_disk.

Example C05_example : exists f1 f2,
  make_meds ex_conf ex_types ex_rows None ex_objs ex_junk (fun _ => 0%Q) = Ok f1 /\
  make_meds ex_conf ["bmask"]%string ex_rows None ex_objs (fun _ _ => 3%Q) (fun _ => 0%Q) = Ok f2 /\
  ext_find (m_ext f1) TBmask = ext_find (m_ext f2) TBmask /\ ext_find (m_ext f1) TBmask <> None.
Proof.
  eexists. eexists. split; [vm_compute; reflexivity|]. split; [vm_compute; reflexivity|].
  split; [vm_compute; reflexivity|vm_compute; discriminate].
Qed.

(** * C06 *)
Theorem C06_exactly_the_images_containing_it : forall k types rows psf input junk pjunk f objs,
  make_meds k types rows psf input junk pjunk = Ok f ->
  selected (k_l k) (map ir_image rows) input objs ->
  forall i o o', zget objs i = Some o -> zget (m_cat f) i = Some o' ->
    zlen (used_slots o') = o_ncut o' /\
    StronglySorted Z.lt (map s_file (used_slots o')) /\
    forall fid, In fid (map s_file (used_slots o')) <->
      exists im, zget (map ir_image rows) fid = Some im /\ accepted (k_l k) fid im o.
Proof. exact MakerLemmas.written_files. Qed.
Print Assumptions C06_exactly_the_images_containing_it.

Example C06_example : exists f, ex_make None = Ok f /\
  selected (k_l ex_conf) (map ir_image ex_rows) ex_objs ex_objs /\
  map (fun o => map s_file (used_slots o)) (m_cat f) = [[0; 1; 2]; [0]; [0; 1]].
Proof. eexists. split; [vm_compute; reflexivity|]. split; [reflexivity|]. vm_compute; reflexivity. Qed.

(** * C07 *)
Theorem C07_recorded_positions : forall k types rows psf input junk pjunk f objs,
  make_meds k types rows psf input junk pjunk = Ok f ->
  selected (k_l k) (map ir_image rows) input objs ->
  forall i o o' icut s, zget objs i = Some o -> cutout_at f i icut o' s ->
    exists im, zget (map ir_image rows) (s_file s) = Some im /\
      s_orow s = spec_row (k_l k) (s_file s) im o /\ s_ocol s = spec_col (k_l k) (s_file s) im o /\
      s_crow s = (s_orow s - inject_Z (s_osr s))%Q /\ s_ccol s = (s_ocol s - inject_Z (s_osc s))%Q /\
      (let '(col, row) := w_pos (im_wcs im) (o_ra o) (o_dec o) (color_arg (k_l k) (s_file s) o) in
       get_jacobian f i icut
       = Ok (mkJac (s_crow s) (s_ccol s) (s_dudrow s) (s_dudcol s) (s_dvdrow s) (s_dvdcol s)) /\
       w_jac (im_wcs im) col row (color_arg (k_l k) (s_file s) o)
       = (s_dudcol s, s_dudrow s, s_dvdcol s, s_dvdrow s)) /\
      ((0 <= s_orow s)%Q -> (inject_Z (o_box o' - 1) * (1#2) - (1#2) <= s_crow s /\
                             s_crow s < inject_Z (o_box o' - 1) * (1#2) + (1#2))%Q) /\
      ((0 <= s_ocol s)%Q -> (inject_Z (o_box o' - 1) * (1#2) - (1#2) <= s_ccol s /\
                             s_ccol s < inject_Z (o_box o' - 1) * (1#2) + (1#2))%Q).
Proof. exact MakerLemmas.written_positions. Qed.
Print Assumptions C07_recorded_positions.

Example C07_example : exists f, ex_make None = Ok f /\
  map (fun o => map (fun s => (s_orow s, s_ocol s, s_osr s, s_osc s)) (used_slots o)) (m_cat f)
  = [[(7#2, 9#2, 2, 3); (3#2, 7#2, 0, 2); (1#2, 1#2, -1, -1)]; [(1#4, 1#2, -1, -1)];
     [(11#2, inject_Z 3, 5, 3); (7#2, inject_Z 2, 3, 2)]].
Proof. eexists. split; vm_compute; reflexivity. Qed.

(** * C08 *)
Theorem C08_slots : forall k types rows psf input junk pjunk f objs,
  make_meds k types rows psf input junk pjunk = Ok f ->
  selected (k_l k) (map ir_image rows) input objs ->
  zlen objs = zlen (m_cat f) /\
  exists nslots, 2 <= nslots /\ (nslots = 2 \/ exists o', In o' (m_cat f) /\ o_ncut o' = nslots) /\
    forall i o o', zget objs i = Some o -> zget (m_cat f) i = Some o' ->
      o_id o' = o_id o /\ o_number o' = o_number o /\ o_ra o' = o_ra o /\ o_dec o' = o_dec o /\
      o_color o' = o_color o /\ o_wcs_color o' = o_wcs_color o /\ o_psf_color o' = o_psf_color o /\
      zlen (o_slots o') = nslots /\ 0 <= o_ncut o' <= nslots /\
      forall icut s, zget (o_slots o') icut = Some s -> o_ncut o' <= icut -> s = def_slot.
Proof. exact MakerLemmas.written_slots. Qed.
Print Assumptions C08_slots.

Example C08_example : exists f, ex_make None = Ok f /\
  map o_id (m_cat f) = [11; 12; 13] /\ map (fun o => zlen (o_slots o)) (m_cat f) = [3; 3; 3] /\
  map (fun o => skipn (Z.to_nat (o_ncut o)) (o_slots o)) (m_cat f) = [[]; [def_slot; def_slot]; [def_slot]].
Proof. eexists. split; [vm_compute; reflexivity|]. repeat split; vm_compute; reflexivity. Qed.

(** * C09 *)
Theorem C09_even_boxes : forall k types rows psf input junk pjunk f objs,
  make_meds k types rows psf input junk pjunk = Ok f ->
  selected (k_l k) (map ir_image rows) input objs ->
  forall i o o', zget objs i = Some o -> zget (m_cat f) i = Some o' ->
    Z.even (o_box o') = true /\ o_box o <= o_box o' <= o_box o + 1 /\
    (Z.even (o_box o) = true -> o_box o' = o_box o).
Proof. exact MakerLemmas.written_boxes. Qed.
Print Assumptions C09_even_boxes.

Example C09_example : exists f, ex_make None = Ok f /\
  map o_box ex_objs = [3; 4; 2] /\ map o_box (m_cat f) = [4; 4; 2].
Proof. eexists. split; [vm_compute; reflexivity|]. split; vm_compute; reflexivity. Qed.

(** * C10 *)
Theorem C10_coadd_check_exact : forall c im images input,
  first_image_is_coadd c = true -> check_in_coadd c = true -> force_into_coadd_bounds c = false ->
  trim_to_coadd c = false ->
  build_layout c (im :: images) (init_cat c (im :: images) input) = Err MEDSCreationError <->
  exists o, In o input /\ ~ accepted c 0 im o.
Proof. exact MakerLemmas3.coadd_check_exact. Qed.
Print Assumptions C10_coadd_check_exact.

Theorem C10_first_cutout_is_coadd : forall k types rows psf input junk pjunk f,
  make_meds k types rows psf input junk pjunk = Ok f -> rows <> [] ->
  first_image_is_coadd (k_l k) = true -> check_in_coadd (k_l k) = true \/ trim_to_coadd (k_l k) = true ->
  forall i o, zget (m_cat f) i = Some o ->
    0 < o_ncut o /\ exists s, zget (o_slots o) 0 = Some s /\ s_file s = 0.
Proof. exact MakerLemmas3.first_cutout_coadd. Qed.
Print Assumptions C10_first_cutout_is_coadd.

(** One object beyond the coadd edge: rejected by the check. *)
Example C10_example :
  build_layout (ex_lconf true true false false 1) (map ir_image ex_rows)
    (init_cat (ex_lconf true true false false 1) (map ir_image ex_rows) (ex_obj 14 4 2 (23#2) 3 :: ex_objs))
  = Err MEDSCreationError /\
  (exists f, ex_make None = Ok f /\ first_image_is_coadd (k_l ex_conf) = true /\ check_in_coadd (k_l ex_conf) = true).
Proof. split; [vm_compute; reflexivity|]. eexists. split; [vm_compute; reflexivity|]. split; reflexivity. Qed.

(** * C11 *)
Theorem C11_trim_keeps_objects_inside : forall k types rows psf input junk pjunk f im,
  make_meds k types rows psf input junk pjunk = Ok f ->
  first_image_is_coadd (k_l k) = true -> trim_to_coadd (k_l k) = true ->
  zget (map ir_image rows) 0 = Some im ->
  exists objs, restricted (accepted (k_l k) 0 im) input objs /\ map o_id (m_cat f) = map o_id objs.
Proof. exact MakerLemmas6.trim_keeps. Qed.
Print Assumptions C11_trim_keeps_objects_inside.

Theorem C11_check_never_fails_after_trim : forall c images input,
  first_image_is_coadd c = true -> trim_to_coadd c = true ->
  build_layout c images (init_cat c images input) <> Err MEDSCreationError.
Proof. exact MakerLemmas3.trim_never_creation_error. Qed.
Print Assumptions C11_check_never_fails_after_trim.

Example C11_example : exists f,
  make_meds (ex_conf_with (ex_lconf true true false true 1)) ex_types ex_rows None
    (ex_obj 14 4 2 (23#2) 3 :: ex_objs ++ [ex_obj 15 5 2 200 3]) ex_junk (fun _ => 0%Q) = Ok f /\
  map o_id (m_cat f) = [11; 12; 13].
Proof. eexists. split; vm_compute; reflexivity. Qed.

(** * C12: false; forcing into the bounds changes nothing. *)
Theorem C12_force_into_coadd_bounds_refuted : exists k types rows input junk pjunk f row o s,
  force_into_coadd_bounds (k_l k) = true /\ first_image_is_coadd (k_l k) = true /\
  make_meds k types rows None input junk pjunk = Ok f /\
  cutout_at f 0 0 o s /\ s_file s = 0 /\ zget rows 0 = Some row /\
  (inject_Z (w_nrow (im_wcs (ir_image row))) - im_offset (ir_image row) < s_orow s)%Q.
Proof.
  exists (ex_conf_with (ex_lconf true true true false 2)), ex_types, ex_rows, [ex_obj 11 1 2 4 (21#2)],
    ex_junk, (fun _ => 0%Q). eexists. eexists. eexists. eexists.
  split; [reflexivity|]. split; [reflexivity|]. split; [vm_compute; reflexivity|].
  split; [split; [vm_compute; reflexivity|split; [vm_compute; split; [discriminate|reflexivity]|vm_compute; reflexivity]]|].
  split; [reflexivity|]. split; [vm_compute; reflexivity|]. vm_compute. reflexivity.
Qed.
Print Assumptions C12_force_into_coadd_bounds_refuted.

Theorem C12_force_changes_nothing : forall k types rows psf input junk pjunk f,
  make_meds (with_force k true) types rows psf input junk pjunk = Ok f ->
  make_meds (with_force k false) types rows psf input junk pjunk = Ok f.
Proof. exact MakerLemmas6.force_noop. Qed.
Print Assumptions C12_force_changes_nothing.

Example C12_example : exists f,
  make_meds (with_force ex_conf true) ex_types ex_rows None ex_objs ex_junk (fun _ => 0%Q) = Ok f.
Proof. eexists. vm_compute; reflexivity. Qed.

(** * C13 *)
Theorem C13_parallel_equals_serial : forall A B (g : A -> B) use_joblib ncpu max_workers ra, 1 <= ncpu ->
  sky2image (map g) use_joblib ncpu max_workers ra = Ok (map g ra).
Proof. exact @PsfLemmas.sky2image_serial. Qed.
Print Assumptions C13_parallel_equals_serial.

Theorem C13_jobs_cover : forall A (ra : list A) n_jobs n_per_job,
  1 <= n_jobs -> 0 < n_per_job -> zlen ra <= n_per_job * n_jobs ->
  concat (sky_jobs ra n_per_job (zrange n_jobs)) = ra /\
  Forall (fun j => j <> []) (sky_jobs ra n_per_job (zrange n_jobs)) /\
  zlen (sky_jobs ra n_per_job (zrange n_jobs)) <= n_jobs.
Proof. exact @PsfLemmas.sky2image_jobs. Qed.
Print Assumptions C13_jobs_cover.

Example C13_example :
  sky_jobs [1; 2; 3; 4; 5; 6; 7] 2 (zrange 5) = [[1; 2]; [3; 4]; [5; 6]; [7]] /\
  sky2image (map (Z.add 1)) true 4 (-1) (zrange 263) = Ok (map (Z.add 1) (zrange 263)).
Proof. split; vm_compute; reflexivity. Qed.

(** * C14 *)
Theorem C14_psf_round_trip : forall k types rows ps input junk pjunk f, 1 <= k_njob k ->
  (forall p r c col, In p ps -> img_ok (p_rec p r c col)) ->
  make_meds k types rows (Some ps) input junk pjunk = Ok f ->
  exists h, m_psf f = Some h /\ tiles 0 (psf_ranges (m_cat f)) (zlen h) /\
    forall iobj icut o s, cutout_at f iobj icut o s ->
    exists p, zget ps (s_file s) = Some p /\
      let im := p_rec p (s_orow s) (s_ocol s) (psf_color_arg (k_l k) (k_p k) (s_file s) o) in
      psf_shape p (s_orow s) (s_ocol s) (psf_color_arg (k_l k) (k_p k) (s_file s) o) = (nr im, nc im) /\
      s_psf_nr s = nr im /\ s_psf_nc s = nc im /\
      (s_psf_crow s, s_psf_ccol s) = p_center p (s_orow s) (s_ocol s) /\
      (0 < nr im * nc im -> get_psf f iobj icut = Ok im).
Proof. exact MakerLemmas3.written_psf. Qed.
Print Assumptions C14_psf_round_trip.

Example C14_hypotheses_example : 1 <= k_njob ex_conf /\ zlen ex_psfs = zlen ex_rows /\
  forall p r c col, In p ex_psfs -> img_ok (p_rec p r c col) /\ psf_shape p r c col = (nr (p_rec p r c col), nc (p_rec p r c col)).
Proof. split; [vm_compute; discriminate|]. split; [reflexivity|]. intros p r c col H. apply ex_psfs_ok, H. Qed.

(** Writing with psfs succeeds exactly when the shapes are as announced. *)
Theorem C14_shape_mismatch_raises : forall k types rows ps input junk pjunk f0,
  make_meds k types rows None input junk pjunk = Ok f0 -> zlen ps = zlen rows -> 1 <= k_njob k ->
  (forall p r c col, In p ps -> img_ok (p_rec p r c col)) ->
  (forall p r c col, In p ps -> 0 <= fst (psf_shape p r c col) /\ 0 <= snd (psf_shape p r c col)) ->
  let matching := forall iobj icut o s p, cutout_at f0 iobj icut o s -> zget ps (s_file s) = Some p ->
     let col := psf_color_arg (k_l k) (k_p k) (s_file s) o in
     psf_shape p (s_orow s) (s_ocol s) col =
     (nr (p_rec p (s_orow s) (s_ocol s) col), nc (p_rec p (s_orow s) (s_ocol s) col)) in
  (matching -> exists f, make_meds k types rows (Some ps) input junk pjunk = Ok f) /\
  (~ matching -> make_meds k types rows (Some ps) input junk pjunk = Err ValueError).
Proof. exact MakerLemmas4.make_meds_psf. Qed.
Print Assumptions C14_shape_mismatch_raises.

(** In particular with PSF objects that announce no shapes, or those they render. *)
Theorem C14_honest_shapes_succeed : forall k types rows ps input junk pjunk f0,
  make_meds k types rows None input junk pjunk = Ok f0 -> zlen ps = zlen rows -> 1 <= k_njob k ->
  (forall p r c col, In p ps -> img_ok (p_rec p r c col)) ->
  (forall p g r c col, In p ps -> p_rec_shape p = Some g ->
     g r c col = (nr (p_rec p r c col), nc (p_rec p r c col))) ->
  exists f, make_meds k types rows (Some ps) input junk pjunk = Ok f.
Proof. exact ShapeLemmas.honest_shapes. Qed.
Print Assumptions C14_honest_shapes_succeed.

Example C14_example : exists f, ex_make (Some ex_psfs) = Ok f /\
  psf_ranges (m_cat f) = [(0, 2); (2, 8); (8, 9); (9, 11); (11, 17); (17, 20)] /\
  get_psf f 0 1 = Ok (mkImg 3 2 [300; 301; 310; 311; 320; 321]%Q) /\
  get_psf f 2 0 = Ok (mkImg 2 3 [200; 201; 202; 210; 211; 212]%Q).
Proof. eexists. split; [vm_compute; reflexivity|]. repeat split; vm_compute; reflexivity. Qed.

Example C14_example_mismatch :
  ex_make (Some [ex_psf 2; mkPsf (fun _ _ _ => ex_qimg 3 3 0) (Some (fun _ _ _ => (3, 4))) (fun _ _ => (0, 0)%Q); ex_psf 1])
  = Err ValueError.
Proof. vm_compute; reflexivity. Qed.

(** * C15 *)
Theorem C15_parallel_psf_equals_serial : forall k types rows psf input junk pjunk n, 1 <= n ->
  make_meds (with_joblib k true n) types rows psf input junk pjunk =
  make_meds (with_joblib k false n) types rows psf input junk pjunk.
Proof. exact MakerLemmas3.make_meds_joblib. Qed.
Print Assumptions C15_parallel_psf_equals_serial.

Example C15_example : exists f,
  make_meds (with_joblib ex_conf true 2) ex_types ex_rows (Some ex_psfs) ex_objs ex_junk (fun i => inject_Z (-5)) = Ok f /\
  ex_make (Some ex_psfs) = Ok f.
Proof. eexists. split; vm_compute; reflexivity. Qed.

(** * C16 *)
Theorem C16_calibration : forall u s t im, source_ok s -> read_image u s t = Ok (Some im) ->
  calibrated u s t im.
Proof. exact CalibLemmas.read_image_calibrated. Qed.
Print Assumptions C16_calibration.

Theorem C16_significance_independent_of_scale : forall u s im wt raw wraw r c x w y z,
  ~ (src_scale s == 0)%Q ->
  calibrated u s TImage im -> calibrated u s TWeight wt ->
  src_image s = PFile raw -> src_weight s = PFile wraw ->
  px raw r c = Some x -> px wraw r c = Some w -> px im r c = Some y -> px wt r c = Some z ->
  ~ unusable_at u s r c ->
  exists b, bkg_at s r c b /\ (y * y * z == (x - b) * (x - b) * w)%Q.
Proof. exact MakerLemmas5.calibrated_significance. Qed.
Print Assumptions C16_significance_independent_of_scale.

Theorem C16_weights_stay_nonpositive : forall u s wt wraw r c w z, ~ (src_scale s == 0)%Q ->
  calibrated u s TWeight wt -> src_weight s = PFile wraw ->
  px wraw r c = Some w -> px wt r c = Some z -> (0 < z)%Q -> (0 < w)%Q /\ ~ unusable_at u s r c.
Proof. exact MakerLemmas5.calibrated_weight_sign. Qed.
Print Assumptions C16_weights_stay_nonpositive.

Example C16_hypotheses_example : exists im wt, calibrated (Some 4) C16_source TImage im /\ calibrated (Some 4) C16_source TWeight wt /\
  ~ (src_scale C16_source == 0)%Q /\ (exists x, px im 0 0 = Some x) /\ (exists z, px wt 0 0 = Some z /\ (0 < z)%Q) /\
  ~ unusable_at (Some 4) C16_source 0 0 /\ unusable_at (Some 4) C16_source 0 1.
Proof.
  destruct (read_image (Some 4) C16_source TImage) as [[im|]|] eqn:E; [|vm_compute in E; discriminate..].
  destruct (read_image (Some 4) C16_source TWeight) as [[wt|]|] eqn:E'; [|vm_compute in E'; discriminate..].
  assert (K : source_ok C16_source) by (unfold source_ok, path_ok, img_ok; cbn; repeat split; discriminate).
  exists im, wt. split; [apply C16_calibration; assumption|]. split; [apply C16_calibration; assumption|].
  vm_compute in E, E'. injection E as <-. injection E' as <-. split; [discriminate|]. split; [eexists; reflexivity|].
  split; [eexists; split; [reflexivity|reflexivity]|].
  split; [|do 3 eexists; split; [reflexivity|]; split; [reflexivity|]; split; [reflexivity|discriminate]].
  intros (b & bm & x & A & B & C & D). injection A as <-. injection B as <-. injection C as <-. apply D. reflexivity.
Qed.

Example C16_example :
  (exists im, read_image (Some 4) C16_source TImage = Ok (Some im) /\ map Qred (dat im) = [18; 36; 54]%Q) /\
  (exists im, read_image (Some 4) C16_source TWeight = Ok (Some im) /\ map Qred (dat im) = [2; 0; -4]%Q) /\
  source_ok C16_source.
Proof.
  split; [eexists; split; vm_compute; reflexivity|]. split; [eexists; split; vm_compute; reflexivity|].
  unfold source_ok, path_ok, img_ok; cbn; repeat split; discriminate.
Qed.

(** * C17 *)
Theorem C17_skipped_type_partial : forall u s t, optional_type t -> no_file s t -> read_image u s t = Ok None.
Proof. exact MakerLemmas5.skipped_read. Qed.
Print Assumptions C17_skipped_type_partial.

(** The cutouts of a skipped source hold what the reserved space held. *)
Theorem C17_skipped_cutouts_are_reserved_space : forall k types rows psf input junk pjunk f,
  Forall (fun o => 1 <= o_box o) input -> Forall (fun r => source_ok (ir_src r)) rows ->
  make_meds k types rows psf input junk pjunk = Ok f ->
  forall iobj icut o s t row,
    cutout_at f iobj icut o s -> In t (map fst (m_ext f)) -> fill_value t <> None -> optional_type t ->
    zget rows (s_file s) = Some row -> no_file (ir_src row) t ->
    exists im, get_cutout f iobj icut t = Ok im /\
      forall r c, 0 <= r < o_box o -> 0 <= c < o_box o ->
        px im r c = Some (junk t (s_start s + r * o_box o + c)).
Proof. exact MakerLemmas5.skipped_cutout. Qed.
Print Assumptions C17_skipped_cutouts_are_reserved_space.

Theorem C17_required_type_raises : forall u s t, ~ optional_type t -> no_file s t ->
  exists e, read_image u s t = Err e.
Proof. exact MakerLemmas5.required_read. Qed.
Print Assumptions C17_required_type_raises.

(** A blank weight path aborts the write; so does the text "none" in a bytes column. *)
Theorem C17_missing_file_skipped_refuted : exists k rows1 rows2 input junk pjunk,
  make_meds k ["weight"%string] rows1 None input junk pjunk = Err TypeError /\
  (forall r, In r rows1 -> no_file (ir_src r) TWeight) /\
  make_meds k ["seg"%string] rows2 None input junk pjunk = Err FitsError /\
  (forall r, In r rows2 -> src_seg (ir_src r) = PNone).
Proof.
  exists ex_conf, [C17_row PBlank PBlank], [C17_row PBlank PNone], ex_objs, ex_junk, (fun _ => 0%Q).
  split; [vm_compute; reflexivity|]. split; [intros r [<-|[]]; left; reflexivity|].
  split; [vm_compute; reflexivity|]. intros r [<-|[]]; reflexivity.
Qed.
Print Assumptions C17_missing_file_skipped_refuted.

Example C17_example : exists f, ex_make None = Ok f /\
  get_cutout f 0 2 TSeg = Ok (mkImg 4 4 (map (fun i => inject_Z (-77 - i)) [32;33;34;35;36;37;38;39;40;41;42;43;44;45;46;47])).
Proof. eexists. split; vm_compute; reflexivity. Qed.

(** * C18 *)
Theorem C18_writable_partial : forall k req rows input junk pjunk,
  layout_possible (k_l k) (map ir_image rows) input ->
  Forall (fun o => 0 <= o_box o) input -> Forall (fun r => source_ok (ir_src r)) rows ->
  (forall t, t = TImage \/ In t req ->
     fill_value t <> None /\ forall r, In r rows -> readable (k_unusable k) (ir_src r) t) ->
  exists f, make_meds k (map ctype_name req) rows None input junk pjunk = Ok f.
Proof. exact MakerLemmas6.writable. Qed.
Print Assumptions C18_writable_partial.

Example C18_hypotheses_example : layout_possible (k_l ex_conf) (map ir_image ex_rows) ex_objs /\
  forall t r, In r ex_rows -> In t [TImage; TWeight; TSeg; TBmask] -> fill_value t <> None /\ readable (k_unusable ex_conf) (ir_src r) t.
Proof.
  split; [|intros t r Hr Ht; split].
  - split; [discriminate|]. split; [reflexivity|]. intros _. split; [intros [H|H]; discriminate|]. intros _ _ im o E H.
    injection E as <-. cbn [ex_objs In] in H. unfold accepted. destruct H as [<-|[<-|[<-|[]]]]; vm_compute; intuition discriminate.
  - destruct Ht as [<-|[<-|[<-|[<-|[]]]]]; discriminate.
  - assert (O : forall (r : imrow) A (p : path A), p <> PNone -> opt_path (ir_src r) p) by (intros r0 A p N E; contradiction).
    destruct Hr as [<-|[<-|[<-|[]]]]; destruct Ht as [<-|[<-|[<-|[<-|[]]]]]; cbn [readable];
      try (apply O; discriminate);
      (eexists; split; [reflexivity|]);
      (split; [first [apply O; discriminate | discriminate]|]);
      first [intros b E; discriminate E | intros _; split; [apply O; discriminate|intros b E; injection E as <-; split; reflexivity]].
Qed.

Theorem C18_no_fill_value_not_writable : forall k types rows psf input junk pjunk f,
  make_meds k types rows psf input junk pjunk = Ok f ->
  forall t iobj icut o s row, In t (map fst (m_ext f)) -> fill_value t = None ->
    cutout_at f iobj icut o s -> zget rows (s_file s) = Some row -> ~ has_file (ir_src row) t.
Proof. exact MakerLemmas2.written_nofill. Qed.
Print Assumptions C18_no_fill_value_not_writable.

Theorem C18_supported_type_writable_refuted :
  exists k rows input junk pjunk, (forall r t, In r rows -> has_file (ir_src r) t) /\
  make_meds k ["ormask"%string] rows None input junk pjunk = Err KeyError /\
  make_meds k ["noise"%string] rows None input junk pjunk = Err KeyError.
Proof.
  exists ex_conf, (firstn 2 ex_rows), ex_objs, ex_junk, (fun _ => 0%Q).
  split; [intros r t Hr|split; vm_compute; reflexivity].
  destruct Hr as [<-|[<-|[]]]; destruct t; eexists; reflexivity.
Qed.
Print Assumptions C18_supported_type_writable_refuted.

Example C18_example : exists f,
  make_meds ex_conf (map ctype_name [TSeg; TBmask; TWeight]) ex_rows None ex_objs ex_junk (fun _ => 0%Q) = Ok f /\
  map fst (m_ext f) = [TImage; TSeg; TBmask; TWeight].
Proof. eexists. split; vm_compute; reflexivity. Qed.

(** * C19: false. *)
Theorem C19_write_repeatable_refuted : exists k types rows input m0 m1 m2 f1 f2 junk pjunk,
  new_maker k types rows None input = Ok m0 /\
  write m0 junk pjunk = Ok (m1, f1) /\ write m1 junk pjunk = Ok (m2, f2) /\
  map o_ncut (m_cat f1) = [1] /\ map o_ncut (m_cat f2) = [2] /\
  map (fun o => map s_file (used_slots o)) (m_cat f2) = [[0; 0]] /\
  write m2 junk pjunk = Err IndexError.
Proof.
  exists (ex_conf_with (ex_lconf true true false false 1)), ex_types, (firstn 1 ex_rows), [ex_obj 11 1 3 (11#2) (9#2)].
  eexists. eexists. eexists. eexists. eexists. exists ex_junk, (fun _ => 0%Q).
  split; [vm_compute; reflexivity|]. split; [vm_compute; reflexivity|]. split; [vm_compute; reflexivity|].
  repeat split; vm_compute; reflexivity.
Qed.
Print Assumptions C19_write_repeatable_refuted.

(** * C20 *)
Theorem C20_types_normalised : forall l l', set_cutout_types l = Ok l' ->
  (exists tl, l' = "image"%string :: tl) /\
  filter (fun s => negb (String.eqb s "image")) l' = filter (fun s => negb (String.eqb s "image")) l.
Proof. exact MakerLemmas5.set_cutout_types_ok. Qed.
Print Assumptions C20_types_normalised.

Theorem C20_image_once : forall l l', set_cutout_types l = Ok l' ->
  (count_occ string_dec l "image"%string <= 1)%nat -> count_occ string_dec l' "image"%string = 1%nat.
Proof. exact MakerLemmas5.set_cutout_types_count. Qed.
Print Assumptions C20_image_once.

Theorem C20_unsupported_raises : forall l, (exists e, set_cutout_types l = Err e) <->
  exists s, In s l /\ forall t, s <> ctype_name t.
Proof. exact MakerLemmas5.set_cutout_types_err. Qed.
Print Assumptions C20_unsupported_raises.

Theorem C20_error_is_ValueError : forall l e, set_cutout_types l = Err e -> e = ValueError.
Proof. exact MakerLemmas5.set_cutout_types_err_value. Qed.
Print Assumptions C20_error_is_ValueError.

Example C20_example :
  set_cutout_types ["seg"; "image"; "weight"; "seg"]%string = Ok ["image"; "seg"; "weight"; "seg"]%string /\
  set_cutout_types ["seg"; "image"; "Weight"]%string = Err ValueError.
Proof. split; vm_compute; reflexivity. Qed.

(** * C21 *)
Theorem C21_complement_bits : forall a i, 0 <= i < 32 ->
  Z.testbit (bitmask_allowed_inv a) i = negb (Z.testbit a i).
Proof. exact MakerLemmas5.allowed_inv_bits. Qed.
Print Assumptions C21_complement_bits.

Theorem C21_only_allowed_bits : forall a x, 0 <= x < 2 ^ 32 ->
  Z.land x (bitmask_allowed_inv a) = 0 <->
  (forall i, 0 <= i < 32 -> Z.testbit x i = true -> Z.testbit a i = true).
Proof. exact MakerLemmas5.allowed_only. Qed.
Print Assumptions C21_only_allowed_bits.

Example C21_example : bitmask_allowed_inv 2049 = 2 ^ 32 - 1 - 2049 /\ Z.land 2048 (bitmask_allowed_inv 2049) = 0.
Proof. split; vm_compute; reflexivity. Qed.

(** * C22 *)
Theorem C22_recorded_position_on_image : forall k types rows psf input junk pjunk f,
  make_meds k types rows psf input junk pjunk = Ok f ->
  forall iobj icut o s row, cutout_at f iobj icut o s -> zget rows (s_file s) = Some row ->
  (im_offset (ir_image row) == 1)%Q ->
  let b := spec_buffer (k_l k) (s_file s) in
  let w := im_wcs (ir_image row) in
  (- b <= s_orow s /\ s_orow s <= inject_Z (w_nrow w - 1) + b /\
   - b <= s_ocol s /\ s_ocol s <= inject_Z (w_ncol w - 1) + b)%Q.
Proof. exact MakerLemmas6.offset_one_on_image. Qed.
Print Assumptions C22_recorded_position_on_image.

(** With position_offset 0 the accepted range is off by one. *)
Theorem C22_other_offset_refuted : exists k types rows input junk pjunk f o s row,
  make_meds k types rows None input junk pjunk = Ok f /\ cutout_at f 0 0 o s /\
  zget rows (s_file s) = Some row /\ spec_buffer (k_l k) (s_file s) = 0%Q /\ im_offset (ir_image row) = 0%Q /\
  (inject_Z (w_nrow (im_wcs (ir_image row)) - 1) < s_orow s)%Q.
Proof.
  exists (ex_conf_with (ex_lconf false false false false 0)), ex_types,
    [mkImrow (mkImage (ex_wcs 9 10 0 0) 0) (ex_src 9 10 1000 PBlank) 70 7], [ex_obj 11 1 2 4 9], ex_junk, (fun _ => 0%Q).
  eexists. eexists. eexists. eexists. split; [vm_compute; reflexivity|].
  split; [split; [vm_compute; reflexivity|split; [vm_compute; split; [discriminate|reflexivity]|vm_compute; reflexivity]]|].
  split; [vm_compute; reflexivity|]. repeat split; vm_compute; reflexivity.
Qed.
Print Assumptions C22_other_offset_refuted.

Example C22_example : exists f o s, ex_make None = Ok f /\ cutout_at f 0 2 o s /\ s_file s = 2 /\
  spec_buffer (k_l ex_conf) 2 = 0%Q /\ s_orow s = (1#2)%Q.
Proof.
  eexists. eexists. eexists. split; [vm_compute; reflexivity|].
  split; [split; [vm_compute; reflexivity|split; [vm_compute; split; [discriminate|reflexivity]|vm_compute; reflexivity]]|].
  repeat split; vm_compute; reflexivity.
Qed.

(** * C23 *)
Theorem C23_out_of_range_rejected_partial : forall f iobj icut, 0 <= iobj -> 0 <= icut ->
  ~ (exists o, zget (m_cat f) iobj = Some o /\ icut < o_ncut o) ->
  (forall t, get_cutout f iobj icut t = Err ValueError) /\
  get_psf f iobj icut = Err ValueError /\
  get_source_info f iobj icut = Err ValueError /\ get_source_path f iobj icut = Err ValueError /\
  get_jacobian f iobj icut = Err ValueError.
Proof. exact MakerLemmas5.out_of_range_rejected. Qed.
Print Assumptions C23_out_of_range_rejected_partial.

(** Negative indices wrap around: object -1 is the last one. *)
Theorem C23_negative_index_refuted : exists f im,
  ex_make None = Ok f /\ zlen (m_cat f) = 3 /\
  get_cutout f (-1) 0 TImage = Ok im /\ get_cutout f 2 0 TImage = Ok im /\
  get_source_info f 0 (-1) = get_source_info f 0 2 /\ exists i, get_source_info f 0 (-1) = Ok i.
Proof.
  eexists. eexists. split; [vm_compute; reflexivity|]. split; [vm_compute; reflexivity|].
  split; [vm_compute; reflexivity|]. split; [vm_compute; reflexivity|]. split; [vm_compute; reflexivity|].
  eexists. vm_compute; reflexivity.
Qed.
Print Assumptions C23_negative_index_refuted.

Example C23_example : exists f, ex_make None = Ok f /\ get_cutout f 1 1 TImage = Err ValueError /\
  get_cutout f 3 0 TImage = Err ValueError.
Proof. eexists. split; [vm_compute; reflexivity|]. split; vm_compute; reflexivity. Qed.

(** * C24 *)
Theorem C24_empty_object_partial : forall f iobj o, zget (m_cat f) iobj = Some o -> o_ncut o = 0 ->
  (forall t, get_mosaic f iobj t = Err ValueError /\ get_cutout_list f iobj t = Err ValueError) /\
  get_jacobian_list f iobj = Err ValueError /\
  get_psf_list f iobj = Ok [].
Proof. exact MakerLemmas5.empty_object_rejected. Qed.
Print Assumptions C24_empty_object_partial.

(** Object 1 is in no image. *)
Example C24_example : (let* f := make_meds (ex_conf_with (ex_lconf false false false false 0)) ex_types ex_rows (Some ex_psfs)
    [ex_obj 11 1 3 (11#2) (9#2); ex_obj 12 1 3 300 4] ex_junk (fun _ => 0%Q) in
  Ok (option_map o_ncut (zget (m_cat f) 1), get_mosaic f 1 TImage, get_cutout_list f 1 TWeight, get_jacobian_list f 1,
      get_psf_list f 1, map o_ncut (m_cat f)))
  = Ok (Some 0, Err ValueError, Err ValueError, Err ValueError, Ok [], [3; 0]).
Proof. vm_compute. reflexivity. Qed.

Theorem C24_psf_mosaic_refuted : forall f iobj im, get_mosaic_any f iobj RPsf <> Ok im.
Proof. exact MakerLemmas5.psf_mosaic_never. Qed.
Print Assumptions C24_psf_mosaic_refuted.

Theorem C24_psf_list_of_empty_object_refuted : exists k types rows ps input junk pjunk f,
  make_meds k types rows (Some ps) input junk pjunk = Ok f /\
  get_cutout_list f 1 TImage = Err ValueError /\ get_psf_list f 1 = Ok [].
Proof.
  exists (ex_conf_with (ex_lconf false false false false 0)), ex_types, ex_rows, ex_psfs,
    [ex_obj 11 1 3 (11#2) (9#2); ex_obj 12 1 3 300 4], ex_junk, (fun _ => 0%Q).
  eexists. split; [vm_compute; reflexivity|]. split; vm_compute; reflexivity.
Qed.
Print Assumptions C24_psf_list_of_empty_object_refuted.

(** * C68 *)
Theorem C68_source_info : forall k types rows psf input junk pjunk f,
  make_meds k types rows psf input junk pjunk = Ok f ->
  forall iobj icut o s, cutout_at f iobj icut o s ->
  exists row, zget rows (s_file s) = Some row /\ get_source_info f iobj icut = Ok (ir_info row) /\
              get_source_path f iobj icut = Ok (ir_path row).
Proof. exact MakerLemmas.written_source_info. Qed.
Print Assumptions C68_source_info.

Example C68_example : exists f, ex_make None = Ok f /\
  get_source_info f 2 1 = Ok (mkInfo 71 8 1 2) /\ get_source_path f 0 2 = Ok 72.
Proof. eexists. split; [vm_compute; reflexivity|]. split; vm_compute; reflexivity. Qed.
