(** Property theorems on validation, image_info and metadata: C66, C67. *)
From Coq Require Import String.
From Verif Require Import Base Img Types MakerFile Meta SpecMeta ExampleData ExampleCLib.
From Verif Require MetaLemmas.
Open Scope Z_scope.

(** * C66 *)
Theorem C66_accepts_maker_files : forall k types rows psf input junk pjunk f extra info_cols psf_info,
  make_meds k types rows psf input junk pjunk = Ok f -> check_image_info info_cols = Ok tt ->
  validate_meds (names_of f extra info_cols psf_info) = Ok [].
Proof. exact MetaLemmas.written_validates. Qed.
Print Assumptions C66_accepts_maker_files.

Theorem C66_image_info_checked : forall cols,
  (check_image_info cols = Ok tt <-> forall n, In n documented_info_columns -> In n cols) /\
  (check_image_info cols = Ok tt \/ check_image_info cols = Err ValueError).
Proof. exact MetaLemmas.check_info_iff. Qed.
Print Assumptions C66_image_info_checked.

(** A missing table is not reported: the constructor fails. *)
Theorem C66_missing_table_refuted : exists f n, In n required_extensions /\ ~ present n (vf_ext f) /\
  forall l, validate_meds f <> Ok l.
Proof.
  exists (mkVfile ["image_info"; "metadata"; "image_cutouts"]%string (output_names []) documented_info_columns), "object_data"%string.
  split; [cbn; tauto|]. split.
  - intros (c & H & E). cbn in H. destruct H as [<-|[<-|[<-|[]]]]; discriminate.
  - intros l. vm_compute. discriminate.
Qed.
Print Assumptions C66_missing_table_refuted.

(** Exactly these failures, and otherwise exactly these reports. *)
Theorem C66_fails_partial : forall f, (validate_meds f = Err FitsError /\
    ~ (present "object_data" (vf_ext f) /\ present "image_info" (vf_ext f) /\ present "metadata" (vf_ext f))) \/
  (exists l, validate_meds f = Ok l) /\
    present "object_data" (vf_ext f) /\ present "image_info" (vf_ext f) /\ present "metadata" (vf_ext f).
Proof. exact MetaLemmas.validate_err. Qed.
Print Assumptions C66_fails_partial.

Theorem C66_reports_partial : forall f l, validate_meds f = Ok l -> forall r, In r l <->
  match r with
  | MissingExt n => n = "image_cutouts"%string /\ ~ present n (vf_ext f)
  | MissingObj n => In n required_object_columns /\ ~ present n (vf_obj_cols f)
  | MissingInfo n => In n required_info_columns /\ ~ present n (vf_info_cols f)
  end.
Proof. exact MetaLemmas.reports_iff. Qed.
Print Assumptions C66_reports_partial.

Example C66_example : (exists f, ex_make None = Ok f /\
    validate_meds (names_of f ["number"%string] documented_info_columns false) = Ok []) /\
  check_image_info documented_info_columns = Ok tt /\
  validate_meds (mkVfile ["OBJECT_DATA"; "image_info"; "metadata"]%string ("ID" :: skipn 2 (output_names []))%string
    (skipn 1 documented_info_columns)) =
  Ok [MissingExt "image_cutouts"; MissingObj "box_size"; MissingInfo "image_path"]%string.
Proof. split; [eexists; split; [vm_compute; reflexivity|]|split]; vm_compute; reflexivity. Qed.

(** * C67 *)
Theorem C67_collision_refuted : exists vs t n, NoDup (names t) /\ set_meta_data vs (Some t) n = Err ValueError.
Proof.
  exists ex_versions, [("meds_version"%string, ["0.9.1"%string])], 1. split; [repeat constructor; intros []|vm_compute; reflexivity].
Qed.
Print Assumptions C67_collision_refuted.

(** In particular the metadata of a written file cannot be used again. *)
Theorem C67_written_metadata_rejected_partial : forall vs vs' meta_in n n' t,
  set_meta_data vs meta_in n = Ok t -> set_meta_data vs' (Some t) n' = Err ValueError.
Proof. exact MetaLemmas.again_fails. Qed.
Print Assumptions C67_written_metadata_rejected_partial.

(** Without a collision all columns are kept. *)
Theorem C67_columns_partial : forall vs meta_in n,
  let input_names := match meta_in with Some t => names t | None => [] end in
  let rows := match meta_in with Some _ => n | None => 1 end in
  (NoDup (input_names ++ VERSION_NAMES) /\
   exists t, set_meta_data vs meta_in n = Ok t /\ names t = input_names ++ VERSION_NAMES /\
     (forall k v t0, meta_in = Some t0 -> column t0 k v -> column t k v) /\
     forall k v, In (k, v) (version_columns vs) -> column t k (repeat v (Z.to_nat rows)))
  \/ (~ NoDup (input_names ++ VERSION_NAMES) /\ set_meta_data vs meta_in n = Err ValueError).
Proof. exact MetaLemmas.set_meta_iff. Qed.
Print Assumptions C67_columns_partial.

Example C67_example : exists t, set_meta_data ex_versions (Some ex_table) 2 = Ok t /\
  firstn 3 t = ex_table ++ [("numpy_version", ["1.26"; "1.26"])]%string /\
  (exists u, set_meta_data ex_versions None 0 = Ok u /\ zlen u = 5).
Proof. eexists. split; [vm_compute; reflexivity|]. split; [vm_compute; reflexivity|]. eexists. split; vm_compute; reflexivity. Qed.
