(** Property theorems on the C library and the input program: C62 to C65, C73, C74. *)
From Coq Require Import String.
From Verif Require Import Base Img Types Reader CLib Meta SpecFile SpecCLib SpecMeta ExampleCLib.
From Verif Require CLibLemmas CLibLemmas2 MetaLemmas.
Open Scope Z_scope.

(** * C62 *)
Theorem C62_cutouts : forall cf m, file_wf (cf_file cf) -> meds_open cf = Ok (Some m) ->
  forall t mos iobj icut o s, ext_find (m_ext (cf_file cf)) t = Some mos -> cutout_at (cf_file cf) iobj icut o s ->
  exists im ci, get_cutout (cf_file cf) iobj icut t = Ok im /\ nr im = o_box o /\ nc im = o_box o /\
    c_get_cutoutp m t iobj icut = Ok (Some (dat im, o_box o, o_box o)) /\
    c_get_cutout m t iobj icut = Ok (Some ci) /\ holds_cutout ci im.
Proof. exact CLibLemmas.cutout_same. Qed.
Print Assumptions C62_cutouts.

Theorem C62_no_other_cutouts : forall cf m, file_wf (cf_file cf) -> meds_open cf = Ok (Some m) ->
  forall t iobj icut, ext_find (m_ext (cf_file cf)) t = None \/ no_cutout (cf_file cf) iobj icut ->
  c_get_cutoutp m t iobj icut = Ok None /\ c_get_cutout m t iobj icut = Ok None.
Proof. exact CLibLemmas.cutout_none. Qed.
Print Assumptions C62_no_other_cutouts.

Theorem C62_mosaics : forall cf m, file_wf (cf_file cf) -> meds_open cf = Ok (Some m) ->
  forall t mos iobj o, ext_find (m_ext (cf_file cf)) t = Some mos ->
  zget (m_cat (cf_file cf)) iobj = Some o -> 0 < o_ncut o ->
  exists im ci, get_mosaic (cf_file cf) iobj t = Ok im /\
    c_get_mosaicp m t iobj = Ok (Some (dat im, o_ncut o, o_box o, o_box o)) /\
    c_get_mosaic m t iobj = Ok (Some ci) /\
    holds_mosaic ci (o_ncut o) (o_box o) (fun k im => get_cutout (cf_file cf) iobj k t = Ok im).
Proof. exact CLibLemmas.mosaic_same. Qed.
Print Assumptions C62_mosaics.

Theorem C62_no_other_mosaics : forall cf m, file_wf (cf_file cf) -> meds_open cf = Ok (Some m) ->
  forall t iobj, ext_find (m_ext (cf_file cf)) t = None \/ no_cutout (cf_file cf) iobj 0 ->
  c_get_mosaicp m t iobj = Ok None /\ c_get_mosaic m t iobj = Ok None.
Proof. exact CLibLemmas.mosaic_none. Qed.
Print Assumptions C62_no_other_mosaics.

Theorem C62_facts : forall cf m, file_wf (cf_file cf) -> meds_open cf = Ok (Some m) ->
  forall iobj icut o s, cutout_at (cf_file cf) iobj icut o s ->
  c_get_ncutout m iobj = o_ncut o /\ c_get_cutout_cen m iobj icut = Ok (true, s_crow s, s_ccol s) /\
  c_get_source_file_id m iobj icut = Ok (s_file s) /\
  (0 <= s_file s < zlen (m_info (cf_file cf)) -> exists i, get_source_info (cf_file cf) iobj icut = Ok i /\
     c_get_source_info m iobj icut = Ok (Some i)).
Proof. exact CLibLemmas.facts_same. Qed.
Print Assumptions C62_facts.

Theorem C62_no_other_facts : forall cf m, file_wf (cf_file cf) -> meds_open cf = Ok (Some m) ->
  forall iobj icut, no_cutout (cf_file cf) iobj icut ->
  c_get_cutout_cen m iobj icut = Ok (false, qdef, qdef) /\ c_get_source_file_id m iobj icut = Ok (-9999) /\
  c_get_source_info m iobj icut = Ok None /\ c_get_distortion m iobj icut = Ok None.
Proof. exact CLibLemmas.facts_none. Qed.
Print Assumptions C62_no_other_facts.

Theorem C62_no_such_object : forall cf m, meds_open cf = Ok (Some m) ->
  forall iobj, ~ (0 <= iobj < zlen (m_cat (cf_file cf))) -> c_get_ncutout m iobj = 0.
Proof. exact CLibLemmas.ncutout_none. Qed.
Print Assumptions C62_no_such_object.

(** The opened example: cutouts, mosaic and rejected indices. *)
Example C62_example : file_wf (cf_file ex_cfile) /\ exists m ci, meds_open ex_cfile = Ok (Some m) /\
  (exists o s, cutout_at (cf_file ex_cfile) 0 1 o s) /\
  c_get_cutoutp m TImage 0 1 = Ok (Some (map inject_Z [14; 15; 16; 17], 2, 2)) /\
  c_get_mosaic m TImage 0 = Ok (Some ci) /\ MOSAIC_GET ci 1 1 0 = Ok (inject_Z 16) /\
  c_get_cutoutp m TImage 0 (-1) = Ok None /\ c_get_cutoutp m TWeight 0 1 = Ok None /\
  c_get_source_info m 1 0 = Ok (Some (mkInfo 72 9 1 1)).
Proof.
  split; [exact ex_cmeds_wf|]. do 2 eexists. split; [vm_compute; reflexivity|].
  split; [do 2 eexists; vm_compute; repeat split; discriminate|]. repeat (split; [vm_compute; reflexivity|]). vm_compute; reflexivity.
Qed.

(** * C63 *)
Theorem C63_requested_cutout_refuted : exists cf m iobj icut o s, file_wf (cf_file cf) /\ meds_open cf = Ok (Some m) /\
  cutout_at (cf_file cf) iobj icut o s /\ c_get_distortion m iobj icut <> Ok (Some (distortion_of s)).
Proof.
  exists ex_cfile. do 1 eexists. exists 0, 1. do 2 eexists. split; [exact ex_cmeds_wf|]. split; [vm_compute; reflexivity|].
  split; [vm_compute; repeat split; discriminate|]. vm_compute. discriminate.
Qed.
Print Assumptions C63_requested_cutout_refuted.

(** What it returns instead. *)
Theorem C63_first_cutout_partial : forall cf m, file_wf (cf_file cf) -> meds_open cf = Ok (Some m) ->
  forall iobj icut o s, cutout_at (cf_file cf) iobj icut o s ->
  exists s0, cutout_at (cf_file cf) iobj 0 o s0 /\ c_get_distortion m iobj icut = Ok (Some (distortion_of s0)).
Proof. exact CLibLemmas.distortion_first. Qed.
Print Assumptions C63_first_cutout_partial.

Example C63_example : exists m, meds_open ex_cfile = Ok (Some m) /\
  c_get_distortion m 0 1 = Ok (Some (mkDistort (1#4) 0 0 (1#4))).
Proof. eexists. split; vm_compute; reflexivity. Qed.

(** * C64 *)
Theorem C64_large_enough_refuted : exists src wcs sky seg, 0 < src /\ 0 < wcs /\ 0 < sky /\ 0 < seg /\
  get_namelen_max src wcs sky seg < src /\ get_namelen_max src wcs sky seg < wcs.
Proof. exists 10, 20, 5, 3. vm_compute. repeat split. Qed.
Print Assumptions C64_large_enough_refuted.

Theorem C64_when_large_enough_partial : forall src wcs sky seg, let n := get_namelen_max src wcs sky seg in
  (src <= n /\ wcs <= n /\ sky <= n /\ seg <= n) <->
  (wcs <= src \/ (wcs <= Z.max sky seg /\ src <= Z.max sky seg)).
Proof. exact CLibLemmas2.namelen_iff. Qed.
Print Assumptions C64_when_large_enough_partial.

Example C64_example : get_namelen_max 20 20 25 30 = 30 /\ get_namelen_max 10 20 5 3 = 5.
Proof. split; vm_compute; reflexivity. Qed.

(** * C65 *)
Theorem C65_smallest : forall size, size <= 6144 ->
  fft_size (fft_round_size size) /\ size <= fft_round_size size /\ fft_round_size size <= 6144 /\
  forall n, fft_size n -> size <= n -> fft_round_size size <= n.
Proof. exact CLibLemmas2.fft_round_ok. Qed.
Print Assumptions C65_smallest.

Theorem C65_largest : forall size, 6144 < size -> fft_round_size size = 6144.
Proof. exact CLibLemmas2.fft_round_over. Qed.
Print Assumptions C65_largest.

Theorem C65_monotone : forall a b, a <= b -> fft_round_size a <= fft_round_size b.
Proof. exact CLibLemmas2.fft_round_mono. Qed.
Print Assumptions C65_monotone.

Theorem C65_idempotent : forall n, fft_size n -> n <= 6144 -> fft_round_size n = n.
Proof. exact CLibLemmas2.fft_round_fixed. Qed.
Print Assumptions C65_idempotent.

Theorem C65_box_is_fft_size : forall r0 r1 c0 c1 fr e mn mx, fft_size (input_box_size r0 r1 c0 c1 fr e mn mx).
Proof. exact CLibLemmas2.box_fft. Qed.
Print Assumptions C65_box_is_fft_size.

Theorem C65_box_at_most : forall r0 r1 c0 c1 fr e mn mx, input_box_size r0 r1 c0 c1 fr e mn mx <= fft_round_size mx.
Proof. exact CLibLemmas2.box_max. Qed.
Print Assumptions C65_box_at_most.

Theorem C65_box_at_least : forall r0 r1 c0 c1 fr e mn mx, fft_round_size mn <= fft_round_size mx ->
  fft_round_size mn <= input_box_size r0 r1 c0 c1 fr e mn mx.
Proof. exact CLibLemmas2.box_min. Qed.
Print Assumptions C65_box_at_least.

Theorem C65_box_covers : forall r0 r1 c0 c1 fr e mn mx,
  input_box_size r0 r1 c0 c1 fr e mn mx = fft_round_size mx \/
  box_needs r0 r1 c0 c1 fr e (input_box_size r0 r1 c0 c1 fr e mn mx).
Proof. exact CLibLemmas2.box_covers. Qed.
Print Assumptions C65_box_covers.

Theorem C65_box_smallest : forall r0 r1 c0 c1 fr e mn mx n, fft_size n -> n <> 3 -> fft_round_size mn <= n ->
  box_needs r0 r1 c0 c1 fr e n -> input_box_size r0 r1 c0 c1 fr e mn mx <= n.
Proof. exact CLibLemmas2.box_least. Qed.
Print Assumptions C65_box_smallest.

Example C65_example : fft_round_size 50 = 64 /\ fft_round_size 33 = 48 /\ fft_round_size 7000 = 6144 /\
  input_box_size 100 139 10 30 3 (1#2) 32 256 = 48 /\ input_box_size 100 139 10 30 30 (1#2) 32 256 = 256.
Proof. repeat split; vm_compute; reflexivity. Qed.

(** * C73 *)
Theorem C73_opens_maker_files_refuted : exists cf, file_wf (cf_file cf) /\ m_cat (cf_file cf) <> [] /\ m_info (cf_file cf) <> [] /\
  cf_meta cf <> None /\ check_image_info (cf_info_cols cf) = Ok tt /\ meds_open cf = Ok None.
Proof.
  exists (mkCfile ex_cmeds documented_info_columns (Some [])). split; [exact ex_cmeds_wf|].
  repeat (split; [discriminate|]). split; vm_compute; reflexivity.
Qed.
Print Assumptions C73_opens_maker_files_refuted.

(** No file with just the documented columns can be opened. *)
Theorem C73_documented_columns_rejected_partial : forall cf, file_wf (cf_file cf) ->
  (forall n, In n (cf_info_cols cf) <-> In n documented_info_columns) ->
  check_image_info (cf_info_cols cf) = Ok tt /\ meds_open cf = Ok None.
Proof. exact MetaLemmas.documented_not_opened. Qed.
Print Assumptions C73_documented_columns_rejected_partial.

Theorem C73_when_opened_partial : forall cf, file_wf (cf_file cf) ->
  (exists m, meds_open cf = Ok (Some m)) /\ m_cat (cf_file cf) <> [] /\ m_info (cf_file cf) <> [] /\
    c_columns (cf_info_cols cf) /\ cf_meta cf <> None
  \/ meds_open cf = Ok None /\
    (m_cat (cf_file cf) = [] \/ m_info (cf_file cf) = [] \/ ~ c_columns (cf_info_cols cf) \/ cf_meta cf = None).
Proof. exact CLibLemmas.meds_open_iff. Qed.
Print Assumptions C73_when_opened_partial.

Example C73_example : (exists m, meds_open ex_cfile = Ok (Some m)) /\
  meds_open (mkCfile ex_cmeds documented_info_columns (Some [])) = Ok None.
Proof. split; [eexists|]; vm_compute; reflexivity. Qed.

(** * C74 *)
Theorem C74_every_field_refuted : exists tbl n v, NoDup (map fst tbl) /\ In (n, v) tbl /\ In n META_FIELDS /\
  In (n, None) (read_meta tbl).
Proof. exists [("magzp_ref"%string, 30)], "magzp_ref"%string, 30. split; [repeat constructor; intros []|]. vm_compute. repeat split; tauto. Qed.
Print Assumptions C74_every_field_refuted.

Theorem C74_fields_before_a_gap_partial : forall tbl i n, nth_error META_FIELDS i = Some n ->
  ((forall p, In p (firstn i META_FIELDS) -> In p (map fst tbl)) /\ nth_error (read_meta tbl) i = Some (n, table_get tbl n)) \/
  ((exists p, In p (firstn i META_FIELDS) /\ ~ In p (map fst tbl)) /\ nth_error (read_meta tbl) i = Some (n, None)).
Proof. exact (fun tbl => CLibLemmas2.read_fields_ok tbl META_FIELDS). Qed.
Print Assumptions C74_fields_before_a_gap_partial.

Example C74_example :
  firstn 4 (read_meta [("coadd_file", 2); ("cat_file", 1); ("cutout_file", 4)]%string) =
  [("cat_file", Some 1); ("coadd_file", Some 2); ("coadd_srclist", None); ("cutout_file", None)]%string.
Proof. vm_compute. reflexivity. Qed.
