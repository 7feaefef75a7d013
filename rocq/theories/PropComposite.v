(** Property theorems on the composite accessors: C25 to C28 and C35. *)
From Coq Require Import String.
From Verif Require Import Base Img Types Reader MakerLayout MakerWrite MakerFile Composite
  SpecTiles SpecLayout SpecFile SpecComposite ExampleData.
From Verif Require MakerLemmas CompositeLemmas2 CompositeLemmas3.
Open Scope Z_scope.

(** * C25: statements on well-formed files; files of the maker are such. *)
Theorem C25_maker_files_wf : forall k types rows psf input junk pjunk f,
  Forall (fun o => 1 <= o_box o) input ->
  make_meds k types rows psf input junk pjunk = Ok f -> file_wf f.
Proof. exact MakerLemmas.written_file_wf. Qed.
Print Assumptions C25_maker_files_wf.

Theorem C25_cweight : forall f iobj o mw ms restrict, file_wf f ->
  zget (m_cat f) iobj = Some o -> 0 < o_ncut o ->
  ext_find (m_ext f) TWeight = Some mw -> ext_find (m_ext f) TSeg = Some ms ->
  get_cweight_cutout_list f iobj restrict =
  mapM (fun k => get_cweight_cutout f iobj k restrict) (zrange (o_ncut o)).
Proof. exact CompositeLemmas2.cweight_list_eq. Qed.
Print Assumptions C25_cweight.

Theorem C25_cseg : forall f iobj o ms, file_wf f -> zget (m_cat f) iobj = Some o -> 0 < o_ncut o ->
  ext_find (m_ext f) TSeg = Some ms ->
  get_cseg_cutout_list f iobj = mapM (fun k => get_cseg_cutout f iobj k) (zrange (o_ncut o)).
Proof. exact CompositeLemmas2.cseg_list_eq. Qed.
Print Assumptions C25_cseg.

Theorem C25_interpolation : forall f iobj o ms, file_wf f -> zget (m_cat f) iobj = Some o -> 0 < o_ncut o ->
  ext_find (m_ext f) TSeg = Some ms ->
  (let* m := interpolate_coadd_seg_mosaic f iobj in split_mosaic m) =
  mapM (fun k => interpolate_coadd_seg f iobj k) (zrange (o_ncut o)).
Proof. exact CompositeLemmas2.interp_mosaic_eq. Qed.
Print Assumptions C25_interpolation.

Example C25_example : exists f o mw ms l0 l1 l2, ex_seg_make = Ok f /\ zget (m_cat f) 0 = Some o /\ o_ncut o = 3 /\
  ext_find (m_ext f) TWeight = Some mw /\ ext_find (m_ext f) TSeg = Some ms /\
  get_cweight_cutout_list f 0 true = Ok l0 /\ zlen l0 = 3 /\
  get_cseg_cutout_list f 0 = Ok l1 /\ (let* m := interpolate_coadd_seg_mosaic f 0 in split_mosaic m) = Ok l2.
Proof.
  do 7 eexists. split; [vm_compute; reflexivity|]. split; [vm_compute; reflexivity|]. split; [reflexivity|].
  split; [vm_compute; reflexivity|]. split; [vm_compute; reflexivity|]. split; [vm_compute; reflexivity|].
  split; [vm_compute; reflexivity|]. split; vm_compute; reflexivity.
Qed.

(** * C26 *)
Theorem C26_cweight_semantics : forall f iobj k o s0 s wt seg restrict segid, file_wf f ->
  cutout_at f iobj k o s -> zget (o_slots o) 0 = Some s0 ->
  get_cutout f iobj k TWeight = Ok wt -> get_cutout f iobj 0 TSeg = Ok seg ->
  central_seg seg s0 segid -> (0 <= s_crow s0)%Q -> (0 <= s_ccol s0)%Q ->
  exists cw, get_cweight_cutout f iobj k restrict = Ok cw /\
    pixelwise (composite_px restrict seg s0 s k segid) wt cw.
Proof. exact CompositeLemmas3.cweight_semantics. Qed.
Print Assumptions C26_cweight_semantics.

Theorem C26_weights_kept_or_zeroed : forall f iobj k o s wt restrict cw, file_wf f -> cutout_at f iobj k o s ->
  get_cutout f iobj k TWeight = Ok wt -> get_cweight_cutout f iobj k restrict = Ok cw ->
  img_ok cw /\ nr cw = nr wt /\ nc cw = nc wt /\
  forall r c x y, px wt r c = Some x -> px cw r c = Some y -> y = x \/ y = 0%Q.
Proof. exact CompositeLemmas3.cweight_cases. Qed.
Print Assumptions C26_weights_kept_or_zeroed.

Theorem C26_restrict_removes_more : forall f iobj k cw cwr, get_cweight_cutout f iobj k false = Ok cw ->
  get_cweight_cutout f iobj k true = Ok cwr ->
  forall r c x y, px cw r c = Some x -> px cwr r c = Some y -> y = x \/ y = 0%Q.
Proof. exact CompositeLemmas3.cweight_restrict. Qed.
Print Assumptions C26_restrict_removes_more.

Example C26_example : exists f o s0 s wt seg cw cwr, ex_seg_make = Ok f /\ cutout_at f 0 1 o s /\
  zget (o_slots o) 0 = Some s0 /\ get_cutout f 0 1 TWeight = Ok wt /\ get_cutout f 0 0 TSeg = Ok seg /\
  central_seg seg s0 1%Q /\ (0 <= s_crow s0)%Q /\ (0 <= s_ccol s0)%Q /\
  get_cweight_cutout f 0 1 false = Ok cw /\ get_cweight_cutout f 0 1 true = Ok cwr /\
  px cw 0 0 = px wt 0 0 /\ px wt 0 0 <> Some 0%Q /\ px cwr 0 0 = Some 0%Q.
Proof.
  do 8 eexists. split; [vm_compute; reflexivity|]. split.
  { split; [vm_compute; reflexivity|]. split; [split; [discriminate|reflexivity]|vm_compute; reflexivity]. }
  split; [vm_compute; reflexivity|]. split; [vm_compute; reflexivity|]. split; [vm_compute; reflexivity|].
  split; [vm_compute; reflexivity|]. split; [discriminate|]. split; [discriminate|].
  split; [vm_compute; reflexivity|]. split; [vm_compute; reflexivity|]. split; [vm_compute; reflexivity|].
  split; [vm_compute; discriminate|vm_compute; reflexivity].
Qed.

(** * C27: the documented value outside the object's region is zero; sky pixels keep the number. *)
Theorem C27_zero_outside_refuted : exists k types rows psf input junk pjunk f o s seg cs,
  make_meds k types rows psf input junk pjunk = Ok f /\ cutout_at f 0 0 o s /\
  get_cutout f 0 0 TSeg = Ok seg /\ px seg 3 0 = Some 0%Q /\ o_number o = 1 /\
  get_cseg_cutout f 0 0 = Ok cs /\ px cs 3 0 = Some 1%Q.
Proof.
  exists ex_conf, ex_types, ex_seg_rows, None, [ex_obj 11 1 4 (11#2) (9#2); ex_obj 12 2 2 4 (13#2)],
    ex_junk, (fun i => inject_Z (-5)).
  do 5 eexists. split; [vm_compute; reflexivity|]. split.
  { split; [vm_compute; reflexivity|]. split; [split; [discriminate|reflexivity]|vm_compute; reflexivity]. }
  split; [vm_compute; reflexivity|]. split; [vm_compute; reflexivity|]. split; [reflexivity|].
  split; vm_compute; reflexivity.
Qed.
Print Assumptions C27_zero_outside_refuted.

(** What holds: the number, except 0 on the regions of other objects. *)
Theorem C27_cseg_partial : forall f iobj k o s0 s seg sek segid, file_wf f -> m_number_col f = true ->
  cutout_at f iobj k o s -> zget (o_slots o) 0 = Some s0 ->
  get_cutout f iobj k TSeg = Ok sek -> get_cutout f iobj 0 TSeg = Ok seg ->
  central_seg seg s0 segid -> (0 <= s_crow s0)%Q -> (0 <= s_ccol s0)%Q ->
  exists cs, get_cseg_cutout f iobj k = Ok cs /\
    pixelwise (fun r c _ y => composite_px false seg s0 s k segid r c (inject_Z (o_number o)) y) sek cs.
Proof. exact CompositeLemmas3.cseg_semantics. Qed.
Print Assumptions C27_cseg_partial.

Example C27_example : exists f o s0 s seg sek cs, ex_seg_make = Ok f /\ m_number_col f = true /\
  cutout_at f 0 1 o s /\ zget (o_slots o) 0 = Some s0 /\
  get_cutout f 0 1 TSeg = Ok sek /\ get_cutout f 0 0 TSeg = Ok seg /\
  central_seg seg s0 1%Q /\ (0 <= s_crow s0)%Q /\ (0 <= s_ccol s0)%Q /\
  get_cseg_cutout f 0 1 = Ok cs /\ px cs 3 0 = Some 0%Q /\ px cs 3 3 = Some 1%Q.
Proof.
  do 7 eexists. split; [vm_compute; reflexivity|]. split; [reflexivity|]. split.
  { split; [vm_compute; reflexivity|]. split; [split; [discriminate|reflexivity]|vm_compute; reflexivity]. }
  split; [vm_compute; reflexivity|]. split; [vm_compute; reflexivity|]. split; [vm_compute; reflexivity|].
  split; [vm_compute; reflexivity|]. split; [discriminate|]. split; [discriminate|].
  split; [vm_compute; reflexivity|]. split; vm_compute; reflexivity.
Qed.

(** * C28 *)
Theorem C28_interpolation_semantics : forall f iobj k o s0 s seg, file_wf f ->
  cutout_at f iobj k o s -> zget (o_slots o) 0 = Some s0 -> get_cutout f iobj 0 TSeg = Ok seg ->
  k = 0 \/ ~ (jac_det s0 == 0)%Q ->
  exists im, interpolate_coadd_seg f iobj k = Ok im /\
    pixelwise (fun r c _ v => seen seg s0 s k r c v) seg im.
Proof. exact CompositeLemmas3.interpolation_semantics. Qed.
Print Assumptions C28_interpolation_semantics.

Theorem C28_singular_jacobian : forall f iobj k o s0 s seg,
  cutout_at f iobj k o s -> zget (o_slots o) 0 = Some s0 -> get_cutout f iobj 0 TSeg = Ok seg ->
  k <> 0 -> (jac_det s0 == 0)%Q -> interpolate_coadd_seg f iobj k = Err LinAlgError.
Proof. exact CompositeLemmas3.interpolation_singular. Qed.
Print Assumptions C28_singular_jacobian.

(** A coadd whose Jacobian has rank one. *)
Example C28_singular_example : let sl jc st := mkSlot 0 st 0 0 0 0 0 0 jc 1 1 1 0 0 0 0 0 0 in
  let f := mkMeds [set_slots (set_ncut (ex_obj 1 1 1 0 0) 2) [sl 1%Q 0; sl 3%Q 1]] true PsfNone [mkInfo 1 1 0 1]
             [(TSeg, [1; 1]%Q)] None in
  exists o s0 s seg, cutout_at f 0 1 o s /\ zget (o_slots o) 0 = Some s0 /\ get_cutout f 0 0 TSeg = Ok seg /\
    (jac_det s0 == 0)%Q /\ ~ (jac_det s == 0)%Q /\ interpolate_coadd_seg f 0 1 = Err LinAlgError.
Proof.
  do 4 eexists. split.
  { split; [vm_compute; reflexivity|]. split; [split; [discriminate|reflexivity]|vm_compute; reflexivity]. }
  split; [vm_compute; reflexivity|]. split; [vm_compute; reflexivity|]. split; [reflexivity|]. split; [discriminate|].
  vm_compute. reflexivity.
Qed.

Theorem C28_same_geometry : forall f iobj k o s0 s seg, file_wf f ->
  cutout_at f iobj k o s -> zget (o_slots o) 0 = Some s0 -> get_cutout f iobj 0 TSeg = Ok seg ->
  ~ (jac_det s0 == 0)%Q ->
  (s_dudrow s == s_dudrow s0)%Q -> (s_dudcol s == s_dudcol s0)%Q ->
  (s_dvdrow s == s_dvdrow s0)%Q -> (s_dvdcol s == s_dvdcol s0)%Q ->
  (s_crow s == s_crow s0)%Q -> (s_ccol s == s_ccol s0)%Q ->
  interpolate_coadd_seg f iobj k = Ok seg.
Proof. exact CompositeLemmas3.interpolation_same. Qed.
Print Assumptions C28_same_geometry.

Example C28_example : exists f o s0 s s2 seg im, ex_seg_make = Ok f /\ cutout_at f 0 1 o s /\
  zget (o_slots o) 0 = Some s0 /\ get_cutout f 0 0 TSeg = Ok seg /\ ~ (jac_det s0 == 0)%Q /\
  interpolate_coadd_seg f 0 1 = Ok im /\ im <> seg /\ px im 3 0 = Some 2%Q /\
  cutout_at f 0 2 o s2 /\ s_dudcol s2 = s_dudcol s0 /\ interpolate_coadd_seg f 0 2 = Ok seg.
Proof.
  do 7 eexists. split; [vm_compute; reflexivity|]. split.
  { split; [vm_compute; reflexivity|]. split; [split; [discriminate|reflexivity]|vm_compute; reflexivity]. }
  split; [vm_compute; reflexivity|]. split; [vm_compute; reflexivity|]. split; [discriminate|].
  split; [vm_compute; reflexivity|]. split; [vm_compute; discriminate|]. split; [vm_compute; reflexivity|].
  split. { split; [vm_compute; reflexivity|]. split; [split; [discriminate|reflexivity]|vm_compute; reflexivity]. }
  split; vm_compute; reflexivity.
Qed.

(** * C35 *)
Theorem C35_circular_weight : forall f iobj k o s seg wt canonical, file_wf f -> m_number_col f = true ->
  cutout_at f iobj k o s -> get_cutout f iobj k TSeg = Ok seg -> get_cutout f iobj k TWeight = Ok wt ->
  exists cw, get_cseg_weight f iobj k canonical = Ok cw /\
    pixelwise (fun r c x y =>
      (in_free_disc seg (o_number o) (disc_centre canonical o s) r c -> y = x) /\
      (~ in_free_disc seg (o_number o) (disc_centre canonical o s) r c -> y = 0%Q)) wt cw.
Proof. exact CompositeLemmas3.cseg_weight_semantics. Qed.
Print Assumptions C35_circular_weight.

Theorem C35_needs_number : forall f iobj k canonical cw, m_number_col f = false ->
  get_cseg_weight f iobj k canonical <> Ok cw.
Proof. exact CompositeLemmas3.cseg_weight_no_number. Qed.
Print Assumptions C35_needs_number.

Example C35_example : exists f o s seg wt cw, ex_seg_make = Ok f /\ m_number_col f = true /\
  cutout_at f 0 0 o s /\ get_cutout f 0 0 TSeg = Ok seg /\ get_cutout f 0 0 TWeight = Ok wt /\
  get_cseg_weight f 0 0 false = Ok cw /\ px seg 3 3 = Some 2%Q /\ px cw 3 3 = Some 0%Q /\
  px cw 3 2 = px wt 3 2 /\ px wt 3 2 <> Some 0%Q.
Proof.
  do 6 eexists. split; [vm_compute; reflexivity|]. split; [reflexivity|]. split.
  { split; [vm_compute; reflexivity|]. split; [split; [discriminate|reflexivity]|vm_compute; reflexivity]. }
  do 6 (split; [vm_compute; reflexivity|]). vm_compute; discriminate.
Qed.
