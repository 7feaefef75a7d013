(** C113: what the configuration of MEDSMaker means.  Theorems only. *)
From Coq Require Import String.
From Verif Require Import Base Img Types BoundsM MakerLayout MakerWrite MakerFile Config SpecConfig ExampleData
  ConfigLemmas ConfigLemmas2 ConfigLemmas3 ConfigLemmas4 ConfigLemmas5 ConfigLemmas6.
Open Scope Z_scope.
Open Scope string_scope.

(** Not every documented option does something: bitmask_allowed changes no file. *)
Theorem C113_bitmask_refuted : exists z, z <> 0 /\
  forall d njob c rows psf input junk pjunk, unique d -> ~ given d "bitmask_allowed" ->
  make_from_config (Config (("bitmask_allowed", VInt z) :: d)) njob c rows psf input junk pjunk =
  make_from_config (Config d) njob c rows psf input junk pjunk.
Proof. exact bitmask_refuted. Qed.
Print Assumptions C113_bitmask_refuted.

(** The colour options of psf are dropped when the old psf_type is given too. *)
Theorem C113_psf_refuted : exists d s, unique d /\ on2 d "psf" "se" "use_color" /\
  configure (Config d) 1 (mkColumns false false true false) = Ok s /\
  has_psf_color (k_p (st_conf s)) = true /\ psf_se_color (k_p (st_conf s)) = false.
Proof. exact psf_refuted. Qed.
Print Assumptions C113_psf_refuted.

(** Switching joblib off does not switch it off when its options are given. *)
Theorem C113_joblib_refuted : exists d s, unique d /\ In ("use_joblib", VBool false) d /\
  configure (Config d) 1 (mkColumns false false false false) = Ok s /\ k_joblib (st_conf s) = true.
Proof. exact joblib_refuted. Qed.
Print Assumptions C113_joblib_refuted.

(** The text "False" (and any other text but the empty one) switches an option on. *)
Theorem C113_text_refuted : exists d s, unique d /\ In ("first_image_is_coadd", VStr "False") d /\
  configure (Config d) 1 ex_cols = Ok s /\ first_image_is_coadd (k_l (st_conf s)) = true.
Proof. exact text_refuted. Qed.
Print Assumptions C113_text_refuted.

(** The settings of the layout: what is given, else the documented default. *)
Theorem C113_layout_partial : forall d njob c s, unique d -> configure (Config d) njob c = Ok s ->
  let L := k_l (st_conf s) in
  (first_image_is_coadd L = true <-> on d "first_image_is_coadd" true) /\
  (check_in_coadd L = true <-> on d "check_in_coadd" true) /\
  (force_into_coadd_bounds L = true <-> on d "force_into_coadd_bounds" true) /\
  (trim_to_coadd L = true <-> on d "trim_to_coadd" false) /\
  (exists v, in_force d "coadd_bounds_buffer_rowcol" (VNum (1 # 1000)) v /\ number v (coadd_bounds_buffer_rowcol L)) /\
  (exists v, in_force d "bounds_buffer_uv" (VNum 16) v /\ number v (st_uv s)) /\
  (forall z, ncutout_max L = Some z <-> exists v, In ("ncutout_max", v) d /\ integer v z) /\
  (coadd_astrom_color L = true <-> on1 d "coadd_astrom" "use_color") /\
  (se_astrom_color L = true <-> on1 d "se_astrom" "use_color") /\
  has_color L = col_color c /\ has_wcs_color L = col_wcs_color c.
Proof. exact layout_values. Qed.
Print Assumptions C113_layout_partial.

(** The settings of the output; psf_type overrides psf and joblib overrides use_joblib. *)
Theorem C113_output_partial : forall d njob c s, unique d -> configure (Config d) njob c = Ok s ->
  let K := st_conf s in
  (psf_coadd_color (k_p K) = true <-> ~ given d "psf_type" /\ on2 d "psf" "coadd" "use_color") /\
  (psf_se_color (k_p K) = true <-> ~ given d "psf_type" /\ on2 d "psf" "se" "use_color") /\
  has_psf_color (k_p K) = col_psf_color c /\
  (forall z, k_unusable K = Some z <-> exists v, In ("unusable_bmask", v) d /\ integer v z) /\
  (k_joblib K = true <-> given d "joblib" \/ on d "use_joblib" false) /\
  k_njob K = njob /\ k_number_col K = col_number c /\
  (exists l, in_force d "cutout_types" (VStrs []) (VStrs l) /\ types_in_order l (st_types s)) /\
  Forall2 (fun kd s => in_force d (fst kd) (VStr (snd kd)) (VStr s)) dtype_defaults (st_dtype s) /\
  (st_psf s = true <-> given d "psf" \/ given d "psf_type") /\
  (st_min_weight s = true <-> given d "min_weight").
Proof. exact output_values. Qed.
Print Assumptions C113_output_partial.

(** The names of the extensions are not configurable. *)
Theorem C113_extname_partial : forall d njob c s, NoDup (map fst d) -> configure (Config d) njob c = Ok s ->
  st_extname s = ["image_cutouts"; "weight_cutouts"; "seg_cutouts"; "bmask_cutouts"; "ormask_cutouts"; "noise_cutouts"].
Proof. exact ext_fixed. Qed.
Print Assumptions C113_extname_partial.

(** Only the entries with a known key matter, and their order does not. *)
Theorem C113_order_partial : forall d d' njob c rows psf input junk pjunk,
  NoDup (map fst d) -> NoDup (map fst d') ->
  (forall k v, In k known -> (In (k, v) d <-> In (k, v) d')) ->
  make_from_config (Config d) njob c rows psf input junk pjunk =
  make_from_config (Config d') njob c rows psf input junk pjunk.
Proof. exact make_same. Qed.
Print Assumptions C113_order_partial.

(** No configuration, the empty one and the defaults written out are the same;
    anything that is not a dict is refused. *)
Theorem C113_default_partial : forall njob c,
  configure NoConfig njob c = configure (Config []) njob c /\
  configure (Config default_config) njob c = configure NoConfig njob c /\
  configure NotDict njob c = Err RuntimeError.
Proof. exact no_config. Qed.
Print Assumptions C113_default_partial.

(** Accepted are exactly the configurations whose entries have the right type. *)
Theorem C113_accepts_partial : forall d njob c, unique d ->
  ((exists s, configure (Config d) njob c = Ok s) <-> well_typed d).
Proof. exact accepts. Qed.
Print Assumptions C113_accepts_partial.

(** The file is the one made with these settings; psf objects need a psf entry and
    min_weight forbids weights. *)
Theorem C113_file_partial : forall d njob c rows psf input junk pjunk f, unique d ->
  (make_from_config (Config d) njob c rows psf input junk pjunk = Ok f <->
   exists s, configure (Config d) njob c = Ok s /\
     make_meds (st_conf s) (st_types s) rows psf input junk pjunk = Ok f /\
     (psf <> None -> given d "psf" \/ given d "psf_type") /\
     ~ (given d "min_weight" /\ In "weight" (st_types s) /\ rows <> [])).
Proof. exact make_iff. Qed.
Print Assumptions C113_file_partial.

(** A configuration with unusual values. *)
Example C113_example :
  (let* s := configure (Config ex_config) 3 ex_cols in
   Ok (k_l (st_conf s), k_p (st_conf s), (st_types s, st_dtype s, k_joblib (st_conf s)))) =
  Ok (mkLconf true false true true 2 (Some 7) false false false false, mkPconf true false true,
      (["image"; "weight"; "seg"], ["f4"; "f4"; "i4"; "i4"; "i4"; "f4"], false)).
Proof. vm_compute. reflexivity. Qed.

(** Files are made, and refused with min_weight. *)
Example C113_file_example :
  (let* f := make_from_config (Config ex_config_file) 1 ex_cols ex_rows None ex_objs ex_junk (fun _ => 0%Q) in
   Ok (zlen (m_cat f), map fst (m_ext f))) = Ok (zlen ex_objs, [TImage; TWeight]) /\
  (let* f := make_from_config (Config (("min_weight", VInt 0) :: ex_config_file)) 1 ex_cols ex_rows None ex_objs ex_junk (fun _ => 0%Q) in
   Ok (zlen (m_cat f))) = Err RuntimeError /\
  (let* f := make_from_config (Config [("joblib", VBool true)]) 1 ex_cols ex_rows None ex_objs ex_junk (fun _ => 0%Q) in
   Ok (zlen (m_cat f))) = Err AttributeError.
Proof. vm_compute. repeat split; reflexivity. Qed.
