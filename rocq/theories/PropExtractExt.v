(** Property theorems on the extensions of extracted files: C122. *)
From Coq Require Import String.
From Verif Require Import Base Img Types MakerFile Extract MakerFail Meta SpecMeta ExtractExt SpecExtractExt.
From Verif Require ExtractExtLemmas.
Open Scope Z_scope.

(** * C122 *)

(** With copy_all the noise maps are there twice, the second time those of all objects. *)
Theorem C122_once_refuted : exists out a b, extract_on_disk (fun _ => true) true PsfNone ex_x 1 1 = (out, None) /\
  filter (fun h => String.eqb (fst h) "noise_cutouts") out = [("noise_cutouts"%string, a); ("noise_cutouts"%string, b)] /\
  a = HPix [44; 45; 46; 47]%Q /\ b = ex_x_pix 4.
Proof. do 3 eexists. split; [vm_compute; reflexivity|]. split; [vm_compute; reflexivity|]. split; reflexivity. Qed.
Print Assumptions C122_once_refuted.

(** A file without weights: the extraction raises and leaves a file that can be opened and
    passes validation. *)
Theorem C122_left_refuted : exists out e, extract_on_disk (fun _ => true) false PsfNone ex_x_bad 1 1 = (out, Some e) /\
  open_meds (hnames (output_names []) documented_info_columns out) = Ok tt /\
  validate_meds (hnames (output_names []) documented_info_columns out) = Ok [].
Proof. do 2 eexists. split; [vm_compute; reflexivity|]. split; vm_compute; reflexivity. Qed.
Print Assumptions C122_left_refuted.

(** Which extensions an extracted file has. *)
Theorem C122_extensions_partial : forall X full ca pc (f : list (hdu X)) s e out rows sub,
  extract_on_disk full ca pc f s e = (out, None) -> read_obj f = Ok rows -> slice rows s (e + 1) = Ok sub -> placed sub ->
  exists own others, out = (own ++ others)%list /\ map fst own = own_names f (any_cutouts sub) /\
    (ca = false -> others = []) /\
    (ca = true -> forall h, In h others <-> In h f /\ foreign full h).
Proof. exact @ExtractExtLemmas.extensions. Qed.
Print Assumptions C122_extensions_partial.

(** Extensions of other programs are found in the copy as they were. *)
Theorem C122_found_partial : forall X full pc (f : list (hdu X)) s e out n d,
  extract_on_disk full true pc f s e = (out, None) ->
  ~ In (lower n) ("noise_cutouts"%string :: default_ext) -> hfind f n = Some d -> has_data full d = true ->
  hfind out n = Some d.
Proof. exact @ExtractExtLemmas.found. Qed.
Print Assumptions C122_found_partial.

(** Whatever other extensions a file has, its tables and cutouts are extracted as in
    C43 to C46. *)
Theorem C122_same_partial : forall X full ca nc pc (f : list (hdu X)) mf s e,
  lowercase f -> mosaics_plain f -> meds_of nc pc f = Some mf -> in_file f "metadata" = true ->
  match extract_range ca mf s e with
  | Ok g => exists out, extract_on_disk full ca pc f s e = (out, None) /\ meds_of nc pc out = Some g
  | Err er => snd (extract_on_disk full ca pc f s e) = Some er
  end.
Proof. exact @ExtractExtLemmas.same. Qed.
Print Assumptions C122_same_partial.

(** After an exception the file has the first extensions of a complete one, at least one
    is missing; from the third on it can be opened, from the fourth on validation misses
    no extension. *)
Theorem C122_left_partial : forall X full ca pc (f : list (hdu X)) s e out er oc ic,
  extract_on_disk full ca pc f s e = (out, Some er) ->
  exists any k, (k < length (own_names f any))%nat /\ map fst out = firstn k (own_names f any) /\
    (open_meds (hnames oc ic out) = Ok tt <-> (3 <= k)%nat) /\
    ((exists r, validate_meds (hnames oc ic out) = Ok r /\ forall n, ~ In (MissingExt n) r) <-> (4 <= k)%nat).
Proof. exact @ExtractExtLemmas.left_names. Qed.
Print Assumptions C122_left_partial.

Example C122_ex : exists out, extract_on_disk (fun _ => true) true PsfNone ex_x 1 1 = (out, None) /\
  lowercase ex_x /\ mosaics_plain ex_x /\ meds_of true PsfNone ex_x <> None /\ in_file ex_x "metadata" = true /\
  placed [ex_x_obj 2 4] /\ any_cutouts [ex_x_obj 2 4] = true /\
  map fst out = ["object_data"; "image_info"; "metadata"; "image_cutouts"; "weight_cutouts"; "seg_cutouts"; "noise_cutouts";
                 "noise_cutouts"; "psf_info"; "redshifts"]%string /\
  hfind out "Redshifts" = Some (HOther 9) /\
  map fst (fst (extract_on_disk (fun _ => true) false PsfNone ex_x 1 1)) =
    ["object_data"; "image_info"; "metadata"; "image_cutouts"; "weight_cutouts"; "seg_cutouts"; "noise_cutouts"]%string.
Proof.
  eexists. split; [vm_compute; reflexivity|].
  split; [repeat constructor|]. split; [|split; [discriminate|]].
  { repeat constructor; intros H; try (eexists; reflexivity); contradiction (H eq_refl). }
  split; [reflexivity|]. split.
  { constructor; [|constructor]. intros _. eexists _, _. split; [reflexivity|]. discriminate. }
  split; [reflexivity|]. split; [reflexivity|]. split; reflexivity.
Qed.
