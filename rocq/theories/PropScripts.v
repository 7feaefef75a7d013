(** Property theorems on the programs meds-extract-range, meds-extract-catalog and
    meds-compare: C110, C111. *)
From Coq Require Import String Ascii.
From Verif Require Import Base Img Types Reader SpecFile Extract Compare SpecCompare CProg SpecCProg Scripts SpecScripts ExampleData ExampleCompare.
From Verif Require ScriptsLemmas ScriptsLemmas2 ScriptsLemmas3.
Open Scope Z_scope.

(** * C110: refuted.  Status 0 without a new file; a failure that destroys a file. *)
Theorem C110_status_refuted : exists args (d : disk unit), snd (extract_range_main ex_resolve ex_order args d) = 0 /\
  same_disk d (fst (extract_range_main ex_resolve ex_order args d)).
Proof. exists ["a.fits"; "--he"; "2"; "c.fits"]%string, ex_disk. split; [vm_compute; reflexivity|]. intros q. reflexivity. Qed.
Print Assumptions C110_status_refuted.

Theorem C110_failure_refuted : exists args (d : disk unit) f, snd (extract_range_main ex_resolve ex_order args d) = 1 /\
  d (ex_resolve "b.fits") = Present f tt /\ fst (extract_range_main ex_resolve ex_order args d) (ex_resolve "b.fits") = Unfinished.
Proof.
  exists ["a.fits"; "0"; "1"; "b.fits"]%string, ex_disk_noseg, (ex_cmp (ex_but TImage)).
  split; [vm_compute; reflexivity|]. split; [reflexivity|]. vm_compute. reflexivity.
Qed.
Print Assumptions C110_failure_refuted.

(** What holds instead: a range of objects. *)
Theorem C110_range_partial : forall M resolve order args meds a b sub rest A B (d : disk M) f meta g,
  command args (meds :: a :: b :: sub :: rest) -> reads_as a A -> reads_as b B -> A <= B -> meds <> sub ->
  d (resolve meds) = Present f meta -> extract_range false f A B = Ok g ->
  snd (extract_range_main resolve order args d) = 0 /\
  only_changed d (fst (extract_range_main resolve order args d)) (resolve sub) (Present g meta).
Proof. intros M resolve order. exact (ScriptsLemmas2.range_run resolve order). Qed.
Print Assumptions C110_range_partial.

(** Every command line: status 0 means help or the new file; status 1 means that
    no file was changed, or that the extraction failed half-way; status 2 means an
    unknown option and no file changed. *)
Theorem C110_range_outcomes_partial : forall M resolve order args (d : disk M),
  let r := extract_range_main resolve order args d in
  (snd r = 0 /\ (same_disk d (fst r) /\ (exists pre w post, args = (pre ++ w :: post)%list /\ Forall plain pre /\ asks_help w) \/
     exists meds a b sub rest A B f meta g, command args (meds :: a :: b :: sub :: rest) /\ reads_as a A /\ reads_as b B /\
       A <= B /\ meds <> sub /\ d (resolve meds) = Present f meta /\ extract_range false f A B = Ok g /\
       only_changed d (fst r) (resolve sub) (Present g meta))) \/
  (snd r = 1 /\ exists ws, command args ws /\
     (same_disk d (fst r) \/
      exists meds a b sub rest A B f meta e, ws = meds :: a :: b :: sub :: rest /\ reads_as a A /\ reads_as b B /\
       A <= B /\ meds <> sub /\ d (resolve meds) = Present f meta /\ extract_range false f A B = Err e /\
       only_changed d (fst r) (resolve sub) Unfinished)) \/
  (snd r = 2 /\ same_disk d (fst r) /\
     exists pre w post, args = (pre ++ w :: post)%list /\ Forall plain pre /\ ~ plain w /\ w <> "--"%string /\ ~ asks_help w).
Proof. intros M resolve order. exact (ScriptsLemmas2.range_outcomes resolve order). Qed.
Print Assumptions C110_range_outcomes_partial.

(** A negative number is rejected as an option; it is never a position from the end. *)
Theorem C110_negative_partial : forall M resolve order args pre ds t post (d : disk M),
  args = (pre ++ String "-" t :: post)%list -> Forall plain pre -> digits_text ds t ->
  snd (extract_range_main resolve order args d) = 2 /\ same_disk d (fst (extract_range_main resolve order args d)).
Proof. intros M resolve order. exact (ScriptsLemmas2.range_negative resolve order). Qed.
Print Assumptions C110_negative_partial.

Theorem C110_catalog_partial : forall M resolve order args meds sub rest (d : disk M) f meta,
  command args (meds :: sub :: rest) -> meds <> sub -> d (resolve meds) = Present f meta ->
  snd (extract_catalog_main resolve order args d) = 0 /\
  only_changed d (fst (extract_catalog_main resolve order args d)) (resolve sub)
    (Present (mkMeds (m_cat f) (m_number_col f) (m_psf_cols f) (m_info f) [] None) meta).
Proof. intros M resolve order. exact (ScriptsLemmas2.catalog_run resolve order). Qed.
Print Assumptions C110_catalog_partial.

(** With the catalog a failure changes no file. *)
Theorem C110_catalog_outcomes_partial : forall M resolve order args (d : disk M),
  let r := extract_catalog_main resolve order args d in
  (snd r = 0 /\ (same_disk d (fst r) /\ (exists pre w post, args = (pre ++ w :: post)%list /\ Forall plain pre /\ asks_help w) \/
     exists meds sub rest f meta, command args (meds :: sub :: rest) /\ meds <> sub /\ d (resolve meds) = Present f meta /\
       only_changed d (fst r) (resolve sub) (Present (mkMeds (m_cat f) (m_number_col f) (m_psf_cols f) (m_info f) [] None) meta))) \/
  (snd r = 1 /\ same_disk d (fst r) /\ exists ws, command args ws /\
     forall meds sub rest, ws = meds :: sub :: rest -> meds = sub \/ forall f meta, d (resolve meds) <> Present f meta) \/
  (snd r = 2 /\ same_disk d (fst r) /\
     exists pre w post, args = (pre ++ w :: post)%list /\ Forall plain pre /\ ~ plain w /\ w <> "--"%string /\ ~ asks_help w).
Proof. intros M resolve order. exact (ScriptsLemmas2.catalog_outcomes resolve order). Qed.
Print Assumptions C110_catalog_outcomes_partial.

(** Texts of integers: exactly these are read. *)
Theorem C110_integers_partial : forall s z, py_int s = Ok z <-> reads_as s z.
Proof. exact ScriptsLemmas.py_int_iff. Qed.
Print Assumptions C110_integers_partial.

Example C110_example :
  (exists args, command args ["a.fits"; " 0_0"; "+1 "; "c.fits"; "more"]%string /\ reads_as " 0_0" 0 /\ reads_as "+1 " 1 /\
   match extract_range_main ex_resolve ex_order args ex_disk with
   | (d', 0) => match d' 2 with Present g _ => map o_id (m_cat g) = [1; 2] | _ => False end
   | _ => False end) /\
  snd (extract_range_main ex_resolve ex_order ["a.fits"; "-1"; "1"; "c.fits"]%string ex_disk) = 2 /\
  snd (extract_range_main ex_resolve ex_order ["a.fits"; "1"; "0"; "c.fits"]%string ex_disk) = 1 /\
  snd (extract_range_main ex_resolve ex_order ["a.fits"; "1"; "1.5"; "c.fits"]%string ex_disk) = 1 /\
  snd (extract_range_main ex_resolve ex_order ["a.fits"; "1"; "1"]%string ex_disk) = 1 /\
  snd (extract_catalog_main ex_resolve ex_order ["--"; "a.fits"; "c.fits"]%string ex_disk) = 0 /\
  snd (extract_catalog_main ex_resolve ex_order ["a.fits"; "a.fits"]%string ex_disk) = 1.
Proof.
  split; [|repeat split; vm_compute; reflexivity].
  exists ["a.fits"; " 0_0"; "--"; "+1 "; "c.fits"; "more"]%string.
  split; [constructor; [intros c s; discriminate|]; constructor; [intros c s; discriminate|]; constructor|].
  split; [apply ScriptsLemmas.py_int_iff; vm_compute; reflexivity|].
  split; [apply ScriptsLemmas.py_int_iff; vm_compute; reflexivity|]. vm_compute. reflexivity.
Qed.

(** * C111: refuted.  Status 0 although pixels of the images differ, and although an
    object is only in one of the files. *)
Theorem C111_images_refuted : exists args (d : disk unit) f1 f2, d (ex_resolve (a_file1 args)) = Present f1 tt /\
  d (ex_resolve (a_file2 args)) = Present f2 tt /\ file_wf f1 /\ file_wf f2 /\ a_nrand args = None /\
  (exists p, In p (ex_match (map o_id (m_cat f1)) (map o_id (m_cat f2))) /\ pixel_differs f1 f2 TImage p) /\
  compare_main ex_resolve ex_clip ex_match ex_subset args d = 0.
Proof.
  exists (mkCargs "a.fits" "b.fits" None false (8#10) false), ex_disk, (ex_cmp ex_ones), (ex_cmp (ex_but TImage)).
  split; [reflexivity|]. split; [reflexivity|]. split; [apply ex_cmp_wf|]. split; [apply ex_cmp_wf|]. split; [reflexivity|].
  split; [|vm_compute; reflexivity].
  exists (0, 0). split; [vm_compute; auto|]. exists 0. do 2 eexists. split.
  - do 2 eexists. repeat (split; [vm_compute; first [reflexivity|discriminate]|]). vm_compute; reflexivity.
  - exists 0, 1. do 2 eexists. split; [vm_compute; reflexivity|]. split; [vm_compute; reflexivity|]. vm_compute. discriminate.
Qed.
Print Assumptions C111_images_refuted.

Theorem C111_objects_refuted : exists args (d : disk unit) f1 f2, d (ex_resolve (a_file1 args)) = Present f1 tt /\
  d (ex_resolve (a_file2 args)) = Present f2 tt /\ file_wf f1 /\ file_wf f2 /\ a_nrand args = None /\
  (exists o, In o (m_cat f1) /\ 0 < o_ncut o /\ ~ In (o_id o) (map o_id (m_cat f2))) /\
  compare_main ex_resolve ex_clip ex_match ex_subset args d = 0.
Proof.
  exists (mkCargs "a.fits" "b.fits" None false (8#10) false), ex_disk_one, (ex_cmp ex_ones), ex_first.
  split; [reflexivity|]. split; [reflexivity|]. split; [apply ex_cmp_wf|]. split; [apply ex_first_wf|]. split; [reflexivity|].
  split; [|vm_compute; reflexivity].
  eexists. split; [right; right; left; reflexivity|]. split; [vm_compute; reflexivity|]. vm_compute. intros [H|[]]; discriminate.
Qed.
Print Assumptions C111_objects_refuted.

(** What status 0 means. *)
Theorem C111_status_partial : forall M resolve clip mi sub, (forall l, clip l = Ok tt) -> matcher mi -> valid_subset sub ->
  forall args (d : disk M) f1 f2 m1 m2, d (resolve (a_file1 args)) = Present f1 m1 -> d (resolve (a_file2 args)) = Present f2 m2 ->
  file_wf f1 -> file_wf f2 -> has_types f1 [TImage; TWeight; TBmask; TSeg] -> has_types f2 [TImage; TWeight; TBmask; TSeg] ->
  (0 <= a_rms_tol args)%Q -> a_png args = false ->
  let pairs := mi (map o_id (m_cat f1)) (map o_id (m_cat f2)) in
  compare_main resolve clip mi sub args d = 0 <->
  pairs <> [] /\ same_columns f1 f2 /\
  forall t index p, In t [TImage; TWeight; TBmask; TSeg] -> looked_at pairs (looked (a_nrand args) sub t (zlen pairs)) index p ->
    ~ count_clash (negb (a_no_nepoch args)) f1 f2 p /\ ~ shape_differs f1 f2 t p /\
    (In t [TBmask; TSeg] -> ~ pixel_differs f1 f2 t p).
Proof. intros M resolve clip mi sub. exact (ScriptsLemmas3.compare_status resolve clip mi sub). Qed.
Print Assumptions C111_status_partial.

Theorem C111_no_file_partial : forall M resolve clip mi sub args (d : disk M),
  (forall f m, d (resolve (a_file1 args)) <> Present f m) \/ (forall f m, d (resolve (a_file2 args)) <> Present f m) ->
  compare_main resolve clip mi sub args d = 1.
Proof. intros M resolve clip mi sub. exact (ScriptsLemmas3.compare_not_there resolve clip mi sub). Qed.
Print Assumptions C111_no_file_partial.

Example C111_example : matcher ex_match /\ valid_subset ex_subset /\
  compare_main ex_resolve ex_clip ex_match ex_subset (mkCargs "a.fits" "a.fits" None false (8#10) false) ex_disk = 0 /\
  compare_main ex_resolve ex_clip ex_match ex_subset (mkCargs "a.fits" "b.fits" None false (8#10) false)
    (put ex_disk 1 (Present (ex_cmp (ex_but TSeg)) tt)) = 1 /\
  compare_main ex_resolve ex_clip ex_match ex_subset (mkCargs "a.fits" "b.fits" None true (8#10) false)
    (put ex_disk 1 (Present (ex_cmp (ex_but TBmask)) tt)) = 1 /\
  compare_main ex_resolve ex_clip ex_match ex_subset (mkCargs "a.fits" "c.fits" None false (8#10) false) ex_disk = 1.
Proof. split; [exact ex_match_ok|]. split; [exact ex_subset_ok|]. repeat split; vm_compute; reflexivity. Qed.
