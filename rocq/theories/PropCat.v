(** Property theorems on the columns of the catalog, on catalogs used again, and on
    metadata and positions in the file of coadds: C75 to C78. *)
From Coq Require Import String.
From Verif Require Import Base Img Types Reader MakerLayout MakerFile Composite Coadd Meta CatCols CatFile
  SpecLayout SpecMeta SpecCoadd SpecCat ExampleData ExampleCLib ExampleCoadd ExampleCat.
From Verif Require CatLemmas CatLemmas2 CatLemmas3 CoaddLemmas6 CoaddLemmas7 CoaddLemmas9.
Open Scope Z_scope.

(** * C75 *)
(** A column named like one of the psf columns is dropped without psf_data. *)
Theorem C75_psf_named_column_refuted : exists (t : ctable Z) c d, table_ok 3 t /\
  (forall m, In m must_have -> scalar t m) /\ In c t /\ c_name c = "psf_row_size"%string /\
  written_columns 0 (-9999) false 4 3 [0; 1; 2] 3 (fun _ r => r) (fun _ r => r) t = Ok d /\ ~ In (c_name c) (cnames d).
Proof.
  exists (ex_cols true). do 2 eexists. split; [|split; [|split; [|split; [|split]]]].
  - split; [discriminate|]. split.
    + vm_compute. repeat constructor; cbn; intuition discriminate.
    + intros c H. vm_compute in H. repeat (destruct H as [<-|H]; [split; [reflexivity|]; cbn [c_rows]; intros r R; repeat (destruct R as [<-|R]; [reflexivity|]); destruct R|]). destruct H.
  - intros m H. repeat (destruct H as [<-|H]; [eapply CatLemmas2.scalar_find; reflexivity|]). destruct H.
  - do 6 right. left. reflexivity.
  - reflexivity.
  - vm_compute. reflexivity.
  - vm_compute. intuition discriminate.
Qed.
Print Assumptions C75_psf_named_column_refuted.

(** Every column of the input with another name than the computed ones is written,
    row by row, with its shape; box_size may change. *)
Theorem C75_columns_partial : forall {A} (zero defval : A) (psf : bool) nmax0 n idx maxcut fill fill' (t : ctable A),
  (table_ok n t /\ (forall m, In m must_have -> scalar t m) /\ forall c, In c t -> ~ In (c_name c) computed_columns) ->
  (forall i, In i idx -> 0 <= i < n) -> maxcut <= Z.max 2 nmax0 ->
  exists d, written_columns zero defval psf nmax0 n idx maxcut fill fill' t = Ok d /\
    cnames d = output_names (map c_name (filter (fun c => negb (mem_str (c_name c) must_have)) t) ++ if psf then psf_columns else []) /\
    forall c, In c t -> c_name c <> "box_size"%string -> exists c', In c' d /\ same_column idx c c'.
Proof. exact @CatLemmas.written_ok. Qed.
Print Assumptions C75_columns_partial.

(** The columns that are computed for each cutout are written with what was computed
    for the first [max 2 maxcut] of the cutouts, in that order. *)
Theorem C75_computed_partial : forall {A} (zero defval : A) (psf : bool) nmax0 n idx maxcut fill fill' (t d : ctable A) m,
  (table_ok n t /\ (forall m, In m must_have -> scalar t m) /\ forall c, In c t -> ~ In (c_name c) computed_columns) ->
  (forall i, In i idx -> 0 <= i < n) -> maxcut <= Z.max 2 nmax0 ->
  written_columns zero defval psf nmax0 n idx maxcut fill fill' t = Ok d ->
  In m (cutout_columns ++ if psf then psf_columns else []) ->
  let nmax := Z.max 2 nmax0 in let new := Z.max 2 maxcut in
  In (mkCol m (Some new) (fill' m (map (firstn (Z.to_nat new)) (fill m (repeat (repeat defval (Z.to_nat nmax)) (length idx)))))) d.
Proof. exact @CatLemmas3.computed_written. Qed.
Print Assumptions C75_computed_partial.

Example C75_example : (table_ok 3 (ex_cols false) /\ (forall m, In m must_have -> scalar (ex_cols false) m) /\
    forall c, In c (ex_cols false) -> ~ In (c_name c) computed_columns) /\
  (let* d := written_columns 0 (-9999) true 4 3 [2; 0] 3 (fun _ r => r) (fun _ r => r) (ex_cols false) in
   Ok (skipn 17 d)) =
  Ok ([mkCol "flux"%string None [[90]; [70]]; mkCol "shape"%string (Some 2) [[5; 6]; [1; 2]]]
      ++ map (fun n => mkCol n (Some 3) [[-9999; -9999; -9999]; [-9999; -9999; -9999]]) psf_columns) /\
  (let* d := written_columns 0 (-9999) true 4 3 [2; 0] 3 (fun _ r => map (fun _ => [1; 2; 3; -9999]) r) (fun _ r => r) (ex_cols false) in
   Ok (find_col d "file_id"%string)) = Ok (Some (mkCol "file_id"%string (Some 3) [[1; 2; 3]; [1; 2; 3]])).
Proof.
  split; [|split; vm_compute; reflexivity]. split; [|split].
  - split; [discriminate|]. split.
    + vm_compute. repeat constructor; cbn; intuition discriminate.
    + intros c H. vm_compute in H. repeat (destruct H as [<-|H]; [split; [reflexivity|]; cbn [c_rows]; intros r R; repeat (destruct R as [<-|R]; [reflexivity|]); destruct R|]). destruct H.
  - intros m H. repeat (destruct H as [<-|H]; [eapply CatLemmas2.scalar_find; reflexivity|]). destruct H.
  - intros c H. vm_compute in H. repeat (destruct H as [<-|H]; [vm_compute; intuition discriminate|]). destruct H.
Qed.

(** * C76 *)
(** One image, the same settings, the object_data just written: each object gets
    its cutout twice. *)
Theorem C76_reuse_refuted : exists k types rows input junk pjunk f g o o',
  make_meds k types rows None input junk pjunk = Ok f /\
  remake_meds k types rows None (m_cat f) junk pjunk = Ok g /\
  zget (m_cat f) 0 = Some o /\ zget (m_cat g) 0 = Some o' /\ o_id o' = o_id o /\ o_ncut o = 1 /\ o_ncut o' = 2.
Proof.
  exists ex_conf, ex_types, ex_one_row, (firstn 2 ex_objs), ex_junk, (fun i => inject_Z (-5)). do 4 eexists.
  split; [vm_compute; reflexivity|]. split; [vm_compute; reflexivity|]. split; [vm_compute; reflexivity|]. split; [vm_compute; reflexivity|].
  split; [|split]; vm_compute; reflexivity.
Qed.
Print Assumptions C76_reuse_refuted.

(** The counts of the input stay and the accepting images are added to them. *)
Theorem C76_counts_partial : forall k types rows cat junk pjunk g,
  first_image_is_coadd (k_l k) && trim_to_coadd (k_l k) = false ->
  Forall (fun o => 0 <= o_ncut o <= zlen (o_slots o)) cat ->
  remake_meds k types rows None cat junk pjunk = Ok g ->
  Forall2 (fun o o' => o_id o' = o_id o /\
    exists hits, NoDup hits /\ (forall f, In f hits <-> exists im, zget (map ir_image rows) f = Some im /\ accepted (k_l k) f im o) /\
      o_ncut o' = o_ncut o + zlen hits) cat (m_cat g).
Proof. exact CatLemmas2.remake_counts. Qed.
Print Assumptions C76_counts_partial.

(** Another width of the columns: no file. *)
Theorem C76_width_partial : forall k types rows psf cat junk pjunk o g, In o cat ->
  zlen (o_slots o) <> nmax_of (k_l k) (map ir_image rows) ->
  remake_meds k types rows psf cat junk pjunk <> Ok g.
Proof. exact CatLemmas2.remake_width. Qed.
Print Assumptions C76_width_partial.

Theorem C76_column_width_partial : forall {A} (zero defval : A) (psf : bool) nmax0 n (t : ctable A) c m,
  table_ok n t -> In c t -> In (c_name c) cutout_columns -> c_width c = Some m -> m <> Z.max 2 nmax0 -> m <> 1 ->
  set_obj_data zero defval psf nmax0 n t = Err ValueError.
Proof. exact @CatLemmas.wrong_width. Qed.
Print Assumptions C76_column_width_partial.

(** The same width: the computed columns are taken from the input. *)
Theorem C76_taken_over_partial : forall {A} (zero defval : A) (psf : bool) nmax0 n (t d : ctable A) c,
  table_ok n t -> set_obj_data zero defval psf nmax0 n t = Ok d -> In c t ->
  (c_name c = "ncutout"%string /\ c_width c = None \/ In (c_name c) cutout_columns /\ c_width c = Some (Z.max 2 nmax0)) ->
  In c d.
Proof. exact @CatLemmas.taken_over. Qed.
Print Assumptions C76_taken_over_partial.

Example C76_example :
  (let* f := ex_one in
   let* g := remake_meds ex_conf ex_types ex_one_row None (m_cat f) ex_junk (fun _ => 0%Q) in
   Ok (forallb (fun o => (0 <=? o_ncut o) && (o_ncut o <=? zlen (o_slots o))) (m_cat f),
       map (fun o => (o_ncut o, map s_file (o_slots o), map s_start (o_slots o))) (m_cat g)))
  = Ok (true, [(2, [0; 0], [0; 16]); (2, [0; 0], [32; 48])]) /\
  (let* f := ex_one in rmap (fun g => zlen (m_cat g)) (remake_meds ex_conf ex_types ex_rows None (m_cat f) ex_junk (fun _ => 0%Q))) = Err ValueError /\
  set_obj_data 0 (-9999) false 3 3 (ex_cols false ++ [mkCol "file_id"%string (Some 2) [[0; 1]; [0; 1]; [0; 1]]]) = Err ValueError.
Proof.
  split; [vm_compute; reflexivity|]. split; vm_compute; reflexivity.
Qed.

(** * C77 *)
Theorem C77_rows_refuted : exists vs t m, set_meta_data vs (Some t) 2 = Ok m /\ set_coadd_meta vs m 2 = Err ValueError.
Proof.
  exists ex_versions, [("tile"%string, ["a"; "b"]%string)]. eexists. split; vm_compute; reflexivity.
Qed.
Print Assumptions C77_rows_refuted.

Theorem C77_fails_partial : forall vs t n, n <> 1 -> set_coadd_meta vs t n = Err ValueError.
Proof. exact CatLemmas2.coadd_meta_fails. Qed.
Print Assumptions C77_fails_partial.

Theorem C77_columns_partial : forall vs t, NoDup (names t) ->
  exists m, set_coadd_meta vs t 1 = Ok m /\
    (forall k, In k (names m) <-> In k (names t) \/ In k (map fst (version_columns vs))) /\
    (forall k v, column t k v -> ~ In k (map fst (version_columns vs)) -> column m k v) /\
    (forall k v, In (k, v) (version_columns vs) -> column m k [v]) /\
    NoDup (names m).
Proof. exact CatLemmas2.coadd_meta_ok. Qed.
Print Assumptions C77_columns_partial.

Example C77_example : NoDup (names [("tile", ["a"]); ("meds_version", ["0.1"]); ("band", ["r"])]%string) /\
  set_coadd_meta ex_versions [("tile", ["a"]); ("meds_version", ["0.1"]); ("band", ["r"])]%string 1 =
  Ok (map (fun c => (fst c, [snd c])) (version_columns ex_versions) ++ [("tile"%string, ["a"%string]); ("band"%string, ["r"%string])]).
Proof. split; [repeat constructor; cbn; intuition discriminate|vm_compute; reflexivity]. Qed.

(** * C78 *)
(** The position is that of the original's first cutout, but the image named is the
    first of the list. *)
Theorem C78_source_refuted : exists f rows g o o' s s' i i',
  ex_nc_file = Ok f /\ ex_nc_coadd f = Ok (rows, g) /\
  zget (m_cat f) 0 = Some o /\ zget (m_cat g) 0 = Some o' /\ get_slot o 0 = Ok s /\ get_slot o' 0 = Ok s' /\
  s_orow s' = s_orow s /\ s_ocol s' = s_ocol s /\
  get_source_info f 0 0 = Ok i /\ get_source_info g 0 0 = Ok i' /\ i_path i = 70 /\ i_path i' = 72.
Proof.
  do 9 eexists. do 6 (split; [vm_compute; reflexivity|]). do 4 (split; [vm_compute; reflexivity|]). split; vm_compute; reflexivity.
Qed.
Print Assumptions C78_source_refuted.

Theorem C78_geometry_partial : forall f ct tp junk pjunk coadder rg rows f' j co fl o, stamp_shapes f coadder -> range_from_zero rg -> 0 <= tp ->
  write_coadds f ct tp junk pjunk coadder rg = Ok (rows, f') -> asked f rg j -> zget (m_cat f) j = Some o -> coadder j = Ok (Some co, fl) ->
  exists o' s s', zget (m_cat f') j = Some o' /\ o_ra o' = o_ra o /\ o_dec o' = o_dec o /\
    get_slot o 0 = Ok s /\ get_slot o' 0 = Ok s' /\
    s_orow s' = s_orow s /\ s_ocol s' = s_ocol s /\ s_osr s' = s_osr s /\ s_osc s' = s_osc s /\
    get_jacobian f' j 0 = Ok (co_jac co) /\
    forall i, zget (m_info f) 0 = Some i -> get_source_info f' j 0 = Ok i.
Proof. exact CoaddLemmas9.coadd_geometry. Qed.
Print Assumptions C78_geometry_partial.

(** If the object's first cutout is from the first image, the sources agree. *)
Theorem C78_source_partial : forall f ct tp junk pjunk coadder rg rows f' j co fl o s, stamp_shapes f coadder -> range_from_zero rg -> 0 <= tp ->
  write_coadds f ct tp junk pjunk coadder rg = Ok (rows, f') -> asked f rg j -> zget (m_cat f) j = Some o -> coadder j = Ok (Some co, fl) ->
  0 < o_ncut o -> zget (o_slots o) 0 = Some s -> s_file s = 0 -> m_info f <> [] ->
  get_source_info f' j 0 = get_source_info f j 0.
Proof. exact CoaddLemmas9.coadd_source. Qed.
Print Assumptions C78_source_partial.

Example C78_example : (forall f, stamp_shapes f (get_coadd_obs (ex_cconf [1; 2; 1073741824] [16] false false true 2 (1#3)) (ex_oracle 3) f (1#4, 0, 0, 1#4)%Q)) /\
  range_from_zero (Some (1, 4)) /\
  exists f rows g o s co, ex_cfile = Ok f /\
    write_coadds f [TImage; TWeight; TSeg; TBmask] 40 ex_junk (fun _ => 0%Q)
      (get_coadd_obs (ex_cconf [1; 2; 1073741824] [16] false false true 2 (1#3)) (ex_oracle 3) f (1#4, 0, 0, 1#4)%Q) (Some (1, 4)) = Ok (rows, g) /\
    zget (m_cat f) 3 = Some o /\ zget (o_slots o) 0 = Some s /\ s_file s = 0 /\ 1 < o_ncut o /\
    get_coadd_obs (ex_cconf [1; 2; 1073741824] [16] false false true 2 (1#3)) (ex_oracle 3) f (1#4, 0, 0, 1#4)%Q 3 = Ok (Some co, 0) /\
    get_jacobian g 3 0 = Ok (co_jac co) /\ get_source_path g 3 0 = Ok 70.
Proof.
  split; [intros f; apply CoaddLemmas6.coadder_stamps; [apply CoaddLemmas7.ex_reject_ok|apply CoaddLemmas7.ex_stamps; reflexivity]|].
  split; [discriminate|]. do 6 eexists. split; [vm_compute; reflexivity|]. split; [vm_compute; reflexivity|].
  split; [vm_compute; reflexivity|]. split; [vm_compute; reflexivity|]. split; [vm_compute; reflexivity|]. split; [vm_compute; reflexivity|].
  split; [vm_compute; reflexivity|]. split; vm_compute; reflexivity.
Qed.
