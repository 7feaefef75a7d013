(** Property theorems on the coadder: C52 to C59, C69, C71. *)
From Coq Require Import Qabs.
From Verif Require Import Base Img Types Reader MakerLayout MakerWrite MakerFile Composite Coadd
  SpecTiles SpecFile SpecComposite SpecCoadd ExampleData ExampleCoadd.
From Verif Require MakerLemmas CoaddLemmas3 CoaddLemmas4 CoaddLemmas7 CoaddLemmas8.
Open Scope Z_scope.

(** * C52: [decided] and [first_reason] in SpecCoadd say which maps are judged
    and in which order. *)
Theorem C52_flags_and_counts : forall c o f jm iobj ob r flags,
  reject_keeps_shapes o -> zget (m_cat f) iobj = Some ob ->
  get_coadd_obs c o f jm iobj = Ok (r, flags) ->
  (o_ncut ob = 1 /\ r = None /\ flags = 1) \/
  (1 < o_ncut ob /\ exists ims wts bms ds obslist, epoch_maps c o f iobj ims wts bms /\ decided c ims wts bms ds obslist /\
     zlen ds = o_ncut ob - 1 /\
     match r with
     | None => zeros (map d_flag ds) = 0 /\ flags = 1
     | Some co => 0 < zeros (map d_flag ds) /\ flags = 0 /\ co_ncoadd co = zeros (map d_flag ds) /\ co_imflags co = map d_flag ds
     end).
Proof. exact CoaddLemmas8.coadd_flags. Qed.
Print Assumptions C52_flags_and_counts.

Theorem C52_one_documented_bit : forall c wt bm fl, first_reason c wt bm fl ->
  fl = 0 \/ fl = 2 \/ fl = 4 \/ fl = 8 \/ fl = 16 \/ fl = 32.
Proof. exact CoaddLemmas8.one_bit. Qed.
Print Assumptions C52_one_documented_bit.

Theorem C52_total : forall c o f jm iobj ob s0, file_wf f -> cutout_at f iobj 0 ob s0 -> ~ (jac_det s0 == 0)%Q ->
  (forall t, In t [TImage; TWeight; TBmask; TSeg] -> exists m, ext_find (m_ext f) t = Some m) ->
  c_edge_check c = true -> c_cubic c = true -> (c_max_masked_frac c < 1)%Q -> oracle_total o -> reject_keeps_shapes o ->
  exists r flags, get_coadd_obs c o f jm iobj = Ok (r, flags).
Proof. exact CoaddLemmas8.get_coadd_obs_total. Qed.
Print Assumptions C52_total.

Example C52_example : reject_keeps_shapes (ex_oracle 3) /\ oracle_total (ex_oracle 3) /\
  exists f ob s0 co, ex_cfile = Ok f /\ file_wf f /\ cutout_at f 0 0 ob s0 /\ ~ (jac_det s0 == 0)%Q /\
    o_ncut ob = 4 /\
    get_coadd_obs (ex_cconf [1; 2; 1073741824] [8] false true true 2 (1#4)) (ex_oracle 3) f (1#4, 0, 0, 1#4)%Q 0 = Ok (Some co, 0) /\
    co_imflags co = [0; 2; 8] /\ co_ncoadd co = 1 /\
    get_coadd_obs (ex_cconf [1; 2; 1073741824] [8] false true true 2 (1#4)) (ex_oracle 3) f (1#4, 0, 0, 1#4)%Q 1 = Ok (None, 1) /\
    get_coadd_obs (ex_cconf [1; 2; 1073741824] [8] false true true 2 (1#4)) (ex_oracle 3) f (1#4, 0, 0, 1#4)%Q 2 = Ok (None, 1).
Proof.
  split; [apply CoaddLemmas7.ex_reject_ok|]. split; [apply CoaddLemmas7.ex_total|].
  do 4 eexists. split; [vm_compute; reflexivity|]. split; [apply CoaddLemmas7.ex_cfile_wf; vm_compute; reflexivity|].
  split; [split; [vm_compute; reflexivity|]; split; [split; [discriminate|reflexivity]|vm_compute; reflexivity]|].
  split; [discriminate|]. split; [reflexivity|]. split; [vm_compute; reflexivity|]. split; [reflexivity|]. split; [reflexivity|].
  split; vm_compute; reflexivity.
Qed.

(** * C53: the mask is zero, the ormask the OR of the masks used. *)
Theorem C53_ormask : forall c o f jm iobj ob co flags, reject_keeps_shapes o -> zget (m_cat f) iobj = Some ob ->
  get_coadd_obs c o f jm iobj = Ok (Some co, flags) ->
  exists ims wts bms ds obslist, epoch_maps c o f iobj ims wts bms /\ decided c ims wts bms ds obslist /\
    square_of (o_box ob) (co_bmask co) /\ square_of (o_box ob) (co_ormask co) /\
    (forall p q v, px (co_bmask co) p q = Some v -> v = 0) /\
    forall p q, 0 <= p < o_box ob -> 0 <= q < o_box ob ->
      exists v, px (co_ormask co) p q = Some v /\
        forall i, Z.testbit v i = true <->
          exists d u, In d ds /\ d_flag d = 0 /\ px (d_bm d) p q = Some u /\ Z.testbit u i = true.
Proof. exact CoaddLemmas8.coadd_masks. Qed.
Print Assumptions C53_ormask.

Example C53_example : reject_keeps_shapes (ex_oracle 3) /\
  exists f ob co, ex_cfile = Ok f /\ zget (m_cat f) 0 = Some ob /\
    get_coadd_obs (ex_cconf [1; 2; 1073741824] [16] false false true 2 (1#3)) (ex_oracle 3) f (1#4, 0, 0, 1#4)%Q 0 = Ok (Some co, 0) /\
    co_ncoadd co = 3 /\ co_ormask co = mkImg 4 4 [0; 0; 0; 0; 9; 0; 0; 0; 0; 0; 0; 9; 0; 0; 0; 2].
Proof.
  split; [apply CoaddLemmas7.ex_reject_ok|]. do 3 eexists. split; [vm_compute; reflexivity|]. split; [vm_compute; reflexivity|].
  split; [vm_compute; reflexivity|]. split; reflexivity.
Qed.

(** * C54: for any coadder that gives stamps of the object's size. *)
Theorem C54_layout : forall f ct tp junk pjunk coadder rg rows f', stamp_shapes f coadder -> range_from_zero rg -> 0 <= tp ->
  write_coadds f ct tp junk pjunk coadder rg = Ok (rows, f') ->
  m_cat f' = map cr_obj rows /\ zlen rows = zlen (m_cat f) /\
  exists e, tiles 0 (cut_ranges (m_cat f')) e /\ e <= reserved_pixels f /\
     forall t, In t ct \/ t = TOrmask \/ t = TNoise -> exists m, ext_find (m_ext f') t = Some m /\ zlen m = reserved_pixels f.
Proof. exact CoaddLemmas8.file_layout. Qed.
Print Assumptions C54_layout.

Theorem C54_pixels : forall f ct tp junk pjunk coadder rg rows f' j co fl, stamp_shapes f coadder -> range_from_zero rg -> 0 <= tp ->
  write_coadds f ct tp junk pjunk coadder rg = Ok (rows, f') -> asked f rg j -> 0 <= j < zlen (m_cat f) -> coadder j = Ok (Some co, fl) ->
  (forall t, In t ct \/ t = TOrmask \/ t = TNoise -> get_cutout f' j 0 t = Ok (coadd_plane co t)) /\ get_psf f' j 0 = Ok (co_psf co).
Proof. exact CoaddLemmas8.file_pixels. Qed.
Print Assumptions C54_pixels.

Theorem C54_rows : forall f ct tp junk pjunk coadder rg rows f' j r, stamp_shapes f coadder -> range_from_zero rg -> 0 <= tp ->
  write_coadds f ct tp junk pjunk coadder rg = Ok (rows, f') -> zget rows j = Some r ->
  exists o, zget (m_cat f) j = Some o /\ o_box (cr_obj r) = o_box o /\ cr_orig_ncutout r = o_ncut o - 1 /\
       o_id (cr_obj r) = o_id o /\ o_number (cr_obj r) = o_number o /\
     ((exists co fl rest, asked f rg j /\ coadder j = Ok (Some co, fl) /\ o_ncut (cr_obj r) = 1 /\
         cr_coadd_flags r = fl /\ cr_ncoadd r = co_ncoadd co /\ cr_orig_flags r = co_imflags co ++ rest) \/
      (exists fl, asked f rg j /\ coadder j = Ok (None, fl) /\ o_ncut (cr_obj r) = 0 /\
         cr_coadd_flags r = fl /\ cr_ncoadd r = 0 /\ forall x, In x (cr_orig_flags r) -> x = -9999) \/
      (~ asked f rg j /\ o_ncut (cr_obj r) = 0 /\ cr_coadd_flags r = 0 /\ cr_ncoadd r = 0 /\ forall x, In x (cr_orig_flags r) -> x = -9999)).
Proof. exact CoaddLemmas8.file_rows. Qed.
Print Assumptions C54_rows.

Theorem C54_written : forall f ct tp junk pjunk coadder rg, stamp_shapes f coadder -> range_inside f rg ->
  m_cat f <> [] -> m_number_col f = true -> Forall (fun o => o_slots o <> []) (m_cat f) ->
  (forall j, asked f rg j -> exists x fl, coadder j = Ok (x, fl) /\
     forall co o, x = Some co -> zget (m_cat f) j = Some o -> zlen (co_imflags co) <= o_ncut o - 1) ->
  psf_space f coadder rg tp ->
  exists rows f', write_coadds f ct tp junk pjunk coadder rg = Ok (rows, f').
Proof. exact CoaddLemmas8.file_written. Qed.
Print Assumptions C54_written.

(** The package's coadder is one. *)
Theorem C54_coadder_gives_stamps : forall c o f jm, reject_keeps_shapes o -> coadds_stamps o -> stamp_shapes f (get_coadd_obs c o f jm).
Proof. exact CoaddLemmas6.coadder_stamps. Qed.
Print Assumptions C54_coadder_gives_stamps.

Theorem C54_coadds_written : forall c o f jm ct tp junk pjunk rg, reject_keeps_shapes o -> coadds_stamps o -> oracle_total o ->
  file_wf f -> m_cat f <> [] -> m_number_col f = true ->
  (forall j ob, zget (m_cat f) j = Some ob -> exists s0, 0 < o_ncut ob /\ zget (o_slots ob) 0 = Some s0 /\ ~ (jac_det s0 == 0)%Q) ->
  (forall t, In t [TImage; TWeight; TBmask; TSeg] -> exists m, ext_find (m_ext f) t = Some m) ->
  c_edge_check c = true -> c_cubic c = true -> (c_max_masked_frac c < 1)%Q ->
  range_inside f rg -> psf_space f (get_coadd_obs c o f jm) rg tp ->
  exists rows f', write_coadds f ct tp junk pjunk (get_coadd_obs c o f jm) rg = Ok (rows, f').
Proof. exact CoaddLemmas8.coadds_written. Qed.
Print Assumptions C54_coadds_written.

Example C54_example : reject_keeps_shapes (ex_oracle 3) /\ coadds_stamps (ex_oracle 3) /\ oracle_total (ex_oracle 3) /\
  range_from_zero (Some (1, 4)) /\
  exists f rows g, ex_cfile = Ok f /\
    write_coadds f [TImage; TWeight; TSeg; TBmask] 40 ex_junk (fun _ => 0%Q)
      (get_coadd_obs (ex_cconf [1; 2; 1073741824] [16] false false true 2 (1#3)) (ex_oracle 3) f (1#4, 0, 0, 1#4)%Q) (Some (1, 4)) = Ok (rows, g) /\
    map (fun r => (o_ncut (cr_obj r), cr_coadd_flags r, cr_ncoadd r)) rows = [(0, 0, 0); (1, 0, 2); (0, 1, 0); (1, 0, 2)] /\
    map (fun r => map s_start (o_slots (cr_obj r))) rows = [[-9999; -9999]; [0; -9999]; [-9999; -9999]; [16; -9999]] /\
    reserved_pixels f = 64 /\
    (let* im := get_cutout g 3 0 TOrmask in Ok (nr im, nc im)) = Ok (4, 4).
Proof.
  split; [apply CoaddLemmas7.ex_reject_ok|]. split; [apply CoaddLemmas7.ex_stamps; reflexivity|]. split; [apply CoaddLemmas7.ex_total|].
  split; [discriminate|]. do 3 eexists. split; [vm_compute; reflexivity|]. split; [vm_compute; reflexivity|].
  split; [vm_compute; reflexivity|]. split; [vm_compute; reflexivity|]. split; vm_compute; reflexivity.
Qed.

(** * C55: what symmetrising does; the results are not invariant under rotation,
    and bits are replaced. *)
Theorem C55_weight : forall wt, img_ok wt -> nr wt = nc wt ->
  exists wt', symmetrize_weight wt = Ok wt' /\ img_ok wt' /\ nr wt' = nr wt /\ nc wt' = nc wt /\
    forall r k w', px wt' r k = Some w' ->
      exists w v, px wt r k = Some w /\ px wt k (nc wt - 1 - r) = Some v /\
        ((w' == 0)%Q <-> (w == 0)%Q \/ (v == 0)%Q) /\ (~ (w' == 0)%Q -> w' = w).
Proof. exact CoaddLemmas4.sym_weight_masked. Qed.
Print Assumptions C55_weight.

Theorem C55_mask : forall c bm, img_ok bm -> nr bm = nc bm ->
  exists bm', symmetrize_bmask c bm = Ok bm' /\ img_ok bm' /\ nr bm' = nr bm /\ nc bm' = nc bm /\
    forall r k b', px bm' r k = Some b' ->
      exists b v, px bm r k = Some b /\ px bm k (nc bm - 1 - r) = Some v /\
        (flagged (total_mask (c_bmask_flags c)) b' <-> flagged (total_mask (c_bmask_flags c)) b \/ flagged (total_mask (c_bmask_flags c)) v) /\
        (b' = b \/ b' = v).
Proof. exact CoaddLemmas4.sym_bmask_masked. Qed.
Print Assumptions C55_mask.

Theorem C55_unusable_stays : forall c wt bm wt' bm' p, img_ok wt -> img_ok bm -> nr bm = nr wt -> nc bm = nc wt -> nr wt = nc wt ->
  symmetrize_weight wt = Ok wt' -> symmetrize_bmask c bm = Ok bm' ->
  unusable_px (total_mask (c_bmask_flags c)) wt bm p -> unusable_px (total_mask (c_bmask_flags c)) wt' bm' p.
Proof. exact CoaddLemmas4.sym_keeps_unusable. Qed.
Print Assumptions C55_unusable_stays.

Theorem C55_weight_invariant_refuted : exists wt wt' r k w v, img_ok wt /\ nr wt = nc wt /\ symmetrize_weight wt = Ok wt' /\
  px wt' r k = Some w /\ (w == 0)%Q /\ px wt' k (nc wt - 1 - r) = Some v /\ ~ (v == 0)%Q.
Proof. exact CoaddLemmas7.not_invariant. Qed.
Print Assumptions C55_weight_invariant_refuted.

Theorem C55_mask_invariant_refuted : exists c bm bm' r k x y, img_ok bm /\ nr bm = nc bm /\ symmetrize_bmask c bm = Ok bm' /\
  px bm' r k = Some x /\ flagged (total_mask (c_bmask_flags c)) x /\
  px bm' k (nc bm - 1 - r) = Some y /\ ~ flagged (total_mask (c_bmask_flags c)) y.
Proof. exact CoaddLemmas7.bmask_not_invariant. Qed.
Print Assumptions C55_mask_invariant_refuted.

(** A cutout that hits the edge no longer does. *)
Theorem C55_bits_kept_refuted : exists c bm bm', img_ok bm /\ nr bm = nc bm /\ symmetrize_bmask c bm = Ok bm' /\
  edge_test c bm /\ ~ edge_test c bm'.
Proof. exact CoaddLemmas7.edge_bit_lost. Qed.
Print Assumptions C55_bits_kept_refuted.

Example C55_example :
  symmetrize_weight (mkImg 3 3 [0; 1; 2; 3; 4; 0; 6; 7; 8]%Q) = Ok (mkImg 3 3 [0; 0; 2; 3; 4; 0; 0; 7; 8]%Q) /\
  symmetrize_bmask (ex_cconf [1; 2] [8] true true true 1 1) (mkImg 3 3 [1; 4; 0; 0; 0; 6; 0; 0; 0]) = Ok (mkImg 3 3 [1; 6; 0; 0; 0; 6; 1; 0; 0]).
Proof. vm_compute. repeat split. Qed.

(** * C56: a sum of flags is not their OR. *)
Theorem C56_any_flag_refuted : exists c w b fl, c_bmask_flags c = Some [1; 1] /\ (0 < w)%Q /\
  In fl [1; 1] /\ Z.land b fl <> 0 /\ pix_bad (bad_flags c) w b = false.
Proof. exact CoaddLemmas7.overlap_missed. Qed.
Print Assumptions C56_any_flag_refuted.

(** The lists for which it holds. *)
Theorem C56_exactly_disjoint : forall l, Forall (fun x => 0 <= x) l ->
  ((forall b, has_flag (Some (py_sum l)) b = true <-> has_one_of l b) <-> no_shared_bits l).
Proof. exact CoaddLemmas4.flag_list_exact. Qed.
Print Assumptions C56_exactly_disjoint.

(** Missing: lists in which two flags share a bit. *)
Theorem C56_bad_pixels_partial : forall c l w b, c_bmask_flags c = Some l -> Forall (fun x => 0 <= x) l -> no_shared_bits l ->
  (pix_bad (bad_flags c) w b = true <-> (w <= 0)%Q \/ has_one_of l b).
Proof. exact CoaddLemmas4.bad_pixel_flags. Qed.
Print Assumptions C56_bad_pixels_partial.

Theorem C56_edge_pixels_partial : forall c l bm, c_edge_flags c = Some l -> Forall (fun x => 0 <= x) l -> no_shared_bits l -> img_ok bm ->
  (hits_the_edge c bm = true <-> exists r k b, px bm r k = Some b /\ has_one_of l b).
Proof. exact CoaddLemmas4.edge_pixel_flags. Qed.
Print Assumptions C56_edge_pixels_partial.

Example C56_example : Forall (fun x => 0 <= x) [1; 6; 8] /\ no_shared_bits [1; 6; 8] /\
  pix_bad (bad_flags (ex_cconf [1; 6; 8] [16] true true true 1 1)) 1 4 = true /\
  pix_bad (bad_flags (ex_cconf [1; 6; 8] [16] true true true 1 1)) 1 48 = false.
Proof.
  split; [repeat (apply Forall_cons; [discriminate|]); constructor|]. split; [|split; reflexivity].
  assert (N : forall x y, Z.land x y = 0 -> forall i, 0 <= i -> ~ (Z.testbit x i = true /\ Z.testbit y i = true)).
  { intros x y E i _ (A & B). pose proof (Z.land_spec x y i) as X. rewrite E, Z.bits_0, A, B in X. discriminate. }
  repeat (apply FOP_cons; [repeat (apply Forall_cons; [apply N; reflexivity|]); constructor|]). constructor.
Qed.

(** * C57 *)
Theorem C57_stamp_edge_switch_refuted : exists c wt bm, c_edge_check c = false /\ img_ok wt /\ img_ok bm /\
  nr wt = 2 /\ nc wt = 2 /\ nr bm = 2 /\ nc bm = 2 /\
  (forall r k w, px wt r k = Some w -> (0 < w)%Q) /\ (forall r k b, px bm r k = Some b -> b = 0) /\
  cutout_flag c bm wt = Err UnboundLocalError.
Proof. exact CoaddLemmas7.edge_switch. Qed.
Print Assumptions C57_stamp_edge_switch_refuted.

(** With the switch off no cutout is ever used: either an earlier test rejects it or the call raises. *)
Theorem C57_stamp_edge_off_raises : forall c wt bm, c_edge_check c = false -> img_ok wt -> img_ok bm ->
  0 < nr wt -> 0 < nc wt -> nr bm = nr wt -> nc bm = nc wt ->
  ~ edge_test c bm -> ~ frac_test c wt bm -> ~ central_test c wt bm -> cutout_flag c bm wt = Err UnboundLocalError.
Proof. exact CoaddLemmas4.edge_off_raises. Qed.
Print Assumptions C57_stamp_edge_off_raises.

Theorem C57_stamp_edge_off_unused : forall c wt bm, c_edge_check c = false -> cutout_flag c bm wt <> Ok 0.
Proof. exact CoaddLemmas4.edge_off_never_used. Qed.
Print Assumptions C57_stamp_edge_off_unused.

Theorem C57_central_off : forall c wt bm, c_central_check c = false -> img_ok wt -> img_ok bm -> nr bm = nr wt -> nc bm = nc wt ->
  cutout_flag c bm wt <> Ok 8.
Proof. exact CoaddLemmas7.central_off. Qed.
Print Assumptions C57_central_off.

Theorem C57_every_size_refuted : exists c wt bm, c_central_check c = true /\ img_ok wt /\ img_ok bm /\
  nr wt = 4 /\ nc wt = 4 /\ nr bm = 4 /\ nc bm = 4 /\
  (4 < c_central_size c)%Q /\ px wt 1 1 = Some 0%Q /\ cutout_flag c bm wt = Ok 0.
Proof. exact CoaddLemmas7.central_missed. Qed.
Print Assumptions C57_every_size_refuted.

(** What holds: sizes up to the stamp.  Missing: larger sizes. *)
Theorem C57_central_rejected_partial : forall c wt bm r k fl, c_central_check c = true -> img_ok wt -> img_ok bm ->
  nr bm = nr wt -> nc bm = nc wt -> nc wt = nr wt ->
  (0 < c_central_size c)%Q -> (c_central_size c <= inject_Z (nr wt))%Q ->
  half_box c (nr wt) r -> half_box c (nr wt) k -> unusable_px (total_mask (c_bmask_flags c)) wt bm (r, k) ->
  cutout_flag c bm wt = Ok fl -> fl = 2 \/ fl = 4 \/ fl = 8.
Proof. exact CoaddLemmas7.central_rejected. Qed.
Print Assumptions C57_central_rejected_partial.

Theorem C57_central_detected_partial : forall c wt bm r k, c_central_check c = true -> img_ok wt -> img_ok bm ->
  nr bm = nr wt -> nc bm = nc wt -> nc wt = nr wt ->
  (0 < c_central_size c)%Q -> (c_central_size c <= inject_Z (nr wt))%Q ->
  half_box c (nr wt) r -> half_box c (nr wt) k -> unusable_px (total_mask (c_bmask_flags c)) wt bm (r, k) ->
  central_region_is_masked c bm wt = Ok true.
Proof. exact CoaddLemmas4.central_detected. Qed.
Print Assumptions C57_central_detected_partial.

Theorem C57_central_only_partial : forall c wt bm, img_ok wt -> img_ok bm -> nr bm = nr wt -> nc bm = nc wt -> nc wt = nr wt ->
  (0 < c_central_size c)%Q -> (c_central_size c <= inject_Z (nr wt))%Q -> central_region_is_masked c bm wt = Ok true ->
  c_central_check c = true /\
  exists r k, unusable_px (total_mask (c_bmask_flags c)) wt bm (r, k) /\
    (Qabs (inject_Z r - (inject_Z (nr wt) - 1) / 2) <= c_central_size c / 2 + (1#2))%Q /\
    (Qabs (inject_Z k - (inject_Z (nr wt) - 1) / 2) <= c_central_size c / 2 + (1#2))%Q.
Proof. exact CoaddLemmas4.central_only. Qed.
Print Assumptions C57_central_only_partial.

Theorem C57_checks_total : forall c wt bm, c_edge_check c = true -> img_ok wt -> img_ok bm -> 0 < nr wt -> 0 < nc wt ->
  nr bm = nr wt -> nc bm = nc wt -> exists fl, cutout_flag c bm wt = Ok fl.
Proof. exact CoaddLemmas8.cutout_flag_total. Qed.
Print Assumptions C57_checks_total.

Example C57_example : let c := ex_cconf [1] [8] true true true 2 (1#2) in
  let bm := mkImg 4 4 [0; 0; 0; 0; 0; 0; 0; 0; 0; 0; 1; 0; 0; 0; 0; 0] in let wt := tab2 4 4 (fun _ _ => 1%Q) in
  half_box c 4 2 /\ (0 < c_central_size c)%Q /\ (c_central_size c <= inject_Z 4)%Q /\
  central_region_is_masked c bm wt = Ok true /\ cutout_flag c bm wt = Ok 8 /\
  cutout_flag (ex_cconf [1] [8] true false true 2 (1#2)) bm wt = Ok 0.
Proof. vm_compute. repeat split; discriminate. Qed.

(** * C58 *)
Theorem C58_interpolation : forall c o icut im wt bm, interp_total o -> c_cubic c = true ->
  img_ok im -> img_ok wt -> img_ok bm -> nr im = nr wt -> nc im = nc wt -> nr bm = nr wt -> nc bm = nc wt ->
  (exists r k, 0 <= r < nr wt /\ 0 <= k < nc wt /\ ~ unusable_px (total_mask (c_bmask_flags c)) wt bm (r, k)) ->
  exists im' wt' noise n, interp_bad_pixels c o icut im wt bm = Ok (im', wt', noise, n) /\
    repaired (total_mask (c_bmask_flags c)) im wt bm im' wt' noise n.
Proof. exact CoaddLemmas4.interp_total_spec. Qed.
Print Assumptions C58_interpolation.

Example C58_example : interp_total (ex_oracle 3) /\
  interp_bad_pixels (ex_cconf [1] [8] true true true 2 (1#2)) (ex_oracle 3) 2 (mkImg 2 2 [10; 20; 30; 40]%Q) (mkImg 2 2 [3; 0; 7; 9]%Q) (mkImg 2 2 [0; 0; 1; 2]) =
  Ok (mkImg 2 2 [10; 5; 5; 40]%Q, mkImg 2 2 [3; 12#2; 12#2; 9]%Q, mkImg 2 2 [2; 5; 5; 13]%Q, 2).
Proof. split; [apply CoaddLemmas7.ex_interp|]. vm_compute. reflexivity. Qed.

(** * C59 *)
Theorem C59_same_behaviour_refuted : exists (h : list (cdict Z)) x y,
  construct_all 0 h [Some 0%nat; Some 0%nat] = Ok [x; y] /\ x <> y.
Proof. exact CoaddLemmas7.second_differs. Qed.
Print Assumptions C59_same_behaviour_refuted.

(** The settings of every construction in any history. *)
Theorem C59_history : forall (K : Type) (dflt : K) cs h l, construct_all dflt h cs = Ok l ->
  length l = length cs /\
  forall i x, nth_error cs i = Some x -> nth_error l i = setting dflt h (firstn i cs) x.
Proof. exact @CoaddLemmas4.construct_history. Qed.
Print Assumptions C59_history.

(** Missing: configurations with dither_psfs false. *)
Theorem C59_same_behaviour_partial : forall (K : Type) (dflt : K) h cs l i j x y, construct_all dflt h cs = Ok l -> nth_error cs i = nth_error cs j ->
  (forall r d, nth_error cs i = Some (Some r) -> nth_error h r = Some d -> cd_dither d = None \/ cd_dither d = Some true) ->
  nth_error l i = Some x -> nth_error l j = Some y -> x = y.
Proof. exact @CoaddLemmas7.same_settings. Qed.
Print Assumptions C59_same_behaviour_partial.

Example C59_example :
  construct_all 0 [mkCdict (Some false) 7; mkCdict (Some true) 8] [Some 1%nat; Some 0%nat; None; Some 1%nat; Some 0%nat] =
  Ok [(true, 8); (false, 7); (true, 0); (true, 8); (true, 7)].
Proof. reflexivity. Qed.

(** * C69: an object without cutouts stops the coadding of a file. *)
Theorem C69_empty_object_refuted : exists f, file_wf f /\ m_cat f <> [] /\
  exists c o ob, zget (m_cat f) 1 = Some ob /\ get_coadd_obs c o f (1, 0, 0, 1)%Q 1 = Err ValueError.
Proof. exact CoaddLemmas7.no_cutouts_witness. Qed.
Print Assumptions C69_empty_object_refuted.

Theorem C69_empty_object_raises : forall c o f jm iobj ob, zget (m_cat f) iobj = Some ob -> o_ncut ob = 0 ->
  get_coadd_obs c o f jm iobj = Err ValueError.
Proof. exact CoaddLemmas7.no_cutouts_raises. Qed.
Print Assumptions C69_empty_object_raises.

Theorem C69_no_file : forall c o f jm iobj ob ct tp junk pjunk rg r, zget (m_cat f) iobj = Some ob -> o_ncut ob = 0 -> asked f rg iobj ->
  write_coadds f ct tp junk pjunk (get_coadd_obs c o f jm) rg <> Ok r.
Proof. exact CoaddLemmas7.no_cutouts_no_file. Qed.
Print Assumptions C69_no_file.

Example C69_example : let f := ex_small PsfNone [TImage] in exists ob, zget (m_cat f) 1 = Some ob /\ o_ncut ob = 0 /\ asked f None 1.
Proof. vm_compute. eexists. repeat split; discriminate. Qed.

(** * C71: the reasons for leaving out every cutout are computed and lost. *)
Theorem C71_reasons_recorded_refuted : exists f rows g r ds,
  write_coadds f [TImage; TWeight; TSeg; TBmask] 40 ex_junk (fun _ => 0%Q)
    (get_coadd_obs (ex_cconf [1; 2; 1073741824] [8] false true true 2 (1#4)) (ex_oracle 3) f (1#4, 0, 0, 1#4)%Q) None = Ok (rows, g) /\
  get_obslist (ex_cconf [1; 2; 1073741824] [8] false true true 2 (1#4)) (ex_oracle 3) f 1 = Ok ([], Some ds) /\
  zget rows 1 = Some r /\ ds = [8; 8] /\ cr_orig_ncutout r = 2 /\ cr_orig_flags r = [-9999; -9999; -9999].
Proof. exact CoaddLemmas7.reasons_lost. Qed.
Print Assumptions C71_reasons_recorded_refuted.

(** Missing: objects for which every cutout was left out. *)
Theorem C71_reasons_recorded_partial : forall f ct tp junk pjunk coadder rg rows f' j r, stamp_shapes f coadder -> range_from_zero rg -> 0 <= tp ->
  write_coadds f ct tp junk pjunk coadder rg = Ok (rows, f') -> zget rows j = Some r -> o_ncut (cr_obj r) <> 0 ->
  exists co fl rest, coadder j = Ok (Some co, fl) /\ cr_orig_flags r = co_imflags co ++ rest.
Proof. exact CoaddLemmas8.reasons_recorded. Qed.
Print Assumptions C71_reasons_recorded_partial.

Example C71_example : exists f rows g r, ex_cfile = Ok f /\
  write_coadds f [TImage; TWeight; TSeg; TBmask] 40 ex_junk (fun _ => 0%Q)
    (get_coadd_obs (ex_cconf [1; 2; 1073741824] [8] false true true 2 (1#4)) (ex_oracle 3) f (1#4, 0, 0, 1#4)%Q) None = Ok (rows, g) /\
  zget rows 3 = Some r /\ o_ncut (cr_obj r) <> 0 /\ cr_orig_flags r = [0; 2; 4].
Proof.
  do 4 eexists. split; [vm_compute; reflexivity|]. split; [vm_compute; reflexivity|]. split; [vm_compute; reflexivity|].
  split; [discriminate|reflexivity].
Qed.
