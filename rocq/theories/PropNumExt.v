(** Property theorems on the extensions of files extracted by number: C133. *)
From Coq Require Import String Permutation.
From Verif Require Import Base Img Types MakerFile Extract MakerFail Meta SpecMeta ExtractExt SpecExtractExt NumExt SpecNumExt.
From Verif Require NumExtLemmas.
Open Scope Z_scope.

(** * C133 *)

(** The noise maps of the input are not in the output. *)
Theorem C133_all_types_refuted : exists out, num_on_disk true PsfNone (fun l => l) ex_n [5; 9] = (out, None) /\
  in_file ex_n "noise_cutouts" = true /\ in_file out "noise_cutouts" = false.
Proof. eexists. split; [vm_compute; reflexivity|]. split; vm_compute; reflexivity. Qed.
Print Assumptions C133_all_types_refuted.

(** A file without bit masks: the extraction raises and leaves, in place of the file that
    was there, one that can be opened and passes validation. *)
Theorem C133_left_refuted : exists out e,
  num_extractor true PsfNone (fun l => l) (Some ex_n_nobmask) (Some ex_n_old) "in.fits" "out.fits" [9; 5] = (Some out, Some e) /\
  out <> ex_n_old /\
  open_meds (hnames (output_names []) documented_info_columns out) = Ok tt /\
  validate_meds (hnames (output_names []) documented_info_columns out) = Ok [].
Proof. do 2 eexists. split; [vm_compute; reflexivity|]. split; [discriminate|]. split; vm_compute; reflexivity. Qed.
Print Assumptions C133_left_refuted.

(** Which extensions the new file has. *)
Theorem C133_extensions_partial : forall X nc pc order (f : list (hdu X)) numbers out rows, (forall l, Permutation l (order l)) ->
  NoDup (map o_number rows) -> placed rows ->
  num_on_disk nc pc order f numbers = (out, None) -> read_obj f = Ok rows ->
  map fst out = num_names f (any_cutouts (filter (asked numbers) rows)).
Proof. exact @NumExtLemmas.num_extensions. Qed.
Print Assumptions C133_extensions_partial.

(** Whatever other extensions a file has, its tables and cutouts are extracted as in
    C47 to C49. *)
Theorem C133_same_partial : forall X nc pc order (f : list (hdu X)) mf numbers,
  mosaics_plain f -> meds_of nc pc f = Some mf -> in_file f "metadata" = true ->
  match extract_numbers order mf numbers with
  | Ok g => exists out, num_on_disk nc pc order f numbers = (out, None) /\ meds_of nc pc out = Some g
  | Err er => snd (num_on_disk nc pc order f numbers) = Some er
  end.
Proof. exact @NumExtLemmas.num_same. Qed.
Print Assumptions C133_same_partial.

(** After an exception the file has the first extensions of a complete one, at least one
    is missing; from the third on it can be opened, from the fourth on validation misses
    no extension. *)
Theorem C133_left_partial : forall X nc pc order (f : list (hdu X)) numbers out er oc ic,
  num_on_disk nc pc order f numbers = (out, Some er) ->
  exists any k, (k < length (num_names f any))%nat /\ map fst out = firstn k (num_names f any) /\
    (open_meds (hnames oc ic out) = Ok tt <-> (3 <= k)%nat) /\
    ((exists r, validate_meds (hnames oc ic out) = Ok r /\ forall n, ~ In (MissingExt n) r) <-> (4 <= k)%nat).
Proof. exact @NumExtLemmas.num_left. Qed.
Print Assumptions C133_left_partial.

(** Repeated numbers, no numbers, equal names or an input that cannot be opened leave the
    output as it was. *)
Theorem C133_checks_partial : forall X nc pc order (inp old : option (list (hdu X))) meds_file sub_file numbers,
  ~ NoDup numbers \/ numbers = [] \/ meds_file = sub_file \/ inp = None ->
  exists e, num_extractor nc pc order inp old meds_file sub_file numbers = (old, Some e).
Proof. exact @NumExtLemmas.num_checks. Qed.
Print Assumptions C133_checks_partial.

(** Otherwise nothing of the old file is left, whether the extraction succeeds or not. *)
Theorem C133_clobbers_partial : forall X nc pc order (f : list (hdu X)) old meds_file sub_file numbers,
  NoDup numbers -> numbers <> [] -> meds_file <> sub_file ->
  num_extractor nc pc order (Some f) old meds_file sub_file numbers =
  (Some (fst (num_on_disk nc pc order f (zsort numbers))), snd (num_on_disk nc pc order f (zsort numbers))).
Proof. exact @NumExtLemmas.num_clobbers. Qed.
Print Assumptions C133_clobbers_partial.

(** A number that is not in the catalogue: an exception, and a file with no extension in
    place of the old one. *)
Theorem C133_unknown_partial : forall X pc order (f : list (hdu X)) old meds_file sub_file numbers n rows,
  NoDup numbers -> meds_file <> sub_file -> read_obj f = Ok rows -> In n numbers -> ~ In n (map o_number rows) ->
  num_extractor true pc order (Some f) old meds_file sub_file numbers = (Some [], Some AssertionError).
Proof. exact @NumExtLemmas.num_unknown. Qed.
Print Assumptions C133_unknown_partial.

Example C133_ex : exists out, num_extractor true PsfNone (fun l => l) (Some ex_n) (Some ex_n_old) "in.fits" "out.fits" [9; 2] = (Some out, None) /\
  mosaics_plain ex_n /\ meds_of true PsfNone ex_n <> None /\ in_file ex_n "metadata" = true /\
  read_obj ex_n = Ok [ex_n_obj 5 1 0; ex_n_obj 2 0 (-9999); ex_n_obj 9 1 4] /\
  NoDup (map o_number [ex_n_obj 5 1 0; ex_n_obj 2 0 (-9999); ex_n_obj 9 1 4]) /\
  placed [ex_n_obj 5 1 0; ex_n_obj 2 0 (-9999); ex_n_obj 9 1 4] /\
  any_cutouts (filter (asked [9; 2]) [ex_n_obj 5 1 0; ex_n_obj 2 0 (-9999); ex_n_obj 9 1 4]) = true /\
  any_cutouts (filter (asked [2]) [ex_n_obj 5 1 0; ex_n_obj 2 0 (-9999); ex_n_obj 9 1 4]) = false /\
  out = [("object_data", HObj [ex_n_obj 2 0 (-9999); ex_n_obj 9 1 0]); ("image_info", HInfo []); ("metadata", HMeta 7);
         ("image_cutouts", HPix [14; 15; 16; 17]%Q); ("weight_cutouts", HPix [24; 25; 26; 27]%Q);
         ("seg_cutouts", HPix [34; 35; 36; 37]%Q); ("bmask_cutouts", HPix [54; 55; 56; 57]%Q)]%string /\
  num_extractor true PsfNone (fun l => l) (Some ex_n) (Some ex_n_old) "in.fits" "out.fits" [9; 4] = (Some [], Some AssertionError) /\
  num_extractor true PsfNone (fun l => l) (Some ex_n) (Some ex_n_old) "in.fits" "out.fits" [9; 9] = (Some ex_n_old, Some AssertionError).
Proof.
  eexists. split; [vm_compute; reflexivity|].
  split. { repeat constructor; intros H; try (eexists; reflexivity); contradiction (H eq_refl). }
  split; [discriminate|]. split; [reflexivity|]. split; [reflexivity|].
  split. { repeat constructor; cbn; intuition discriminate. }
  split. { repeat constructor; intros H; try discriminate H; eexists _, _; (split; [reflexivity|discriminate]). }
  repeat split; vm_compute; reflexivity.
Qed.
