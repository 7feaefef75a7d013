(** Property theorems on the programs make-meds-input and meds-get-cutout: C85, C86. *)
From Coq Require Import String Ascii.
From Verif Require Import Base Img Types Reader CLib CProg SpecFile SpecCLib SpecCProg ExampleCLib ExampleCProg.
From Verif Require CProgLemmas.
Open Scope Z_scope.

(** * C85: the lines of make-meds-input *)
Theorem C85_lines_partial : forall fs infile mn mx rows, fs infile = Some (CCat rows) ->
  (forall r, In r rows -> ~ (a_world r == 0)%Q) ->
  exists r, make_meds_input [infile; mn; mx] fs = Ok r /\ r_status r = 0 /\ unchanged r fs /\
    lines_of (fun k n => n = k) rows (atoi mn) (atoi mx) (r_out r).
Proof. exact CProgLemmas.input_plain. Qed.
Print Assumptions C85_lines_partial.

Theorem C85_lines_with_ids_partial : forall fs infile mn mx rows, fs infile = Some (CCat rows) ->
  (forall r, In r rows -> ~ (a_world r == 0)%Q) ->
  forall idf more words, fs idf = Some (CWords words) -> zlen (leading words) = zlen rows ->
  exists r, make_meds_input (infile :: mn :: mx :: idf :: more) fs = Ok r /\ r_status r = 0 /\ unchanged r fs /\
    lines_of (fun k n => zget (leading words) k = Some n) rows (atoi mn) (atoi mx) (r_out r).
Proof. exact CProgLemmas.input_ids. Qed.
Print Assumptions C85_lines_with_ids_partial.

Theorem C85_rejected_partial : forall fs infile mn mx rows, fs infile = Some (CCat rows) ->
  (forall r, In r rows -> ~ (a_world r == 0)%Q) ->
  forall idf more, fs idf = None \/ (exists words, fs idf = Some (CWords words) /\ zlen (leading words) <> zlen rows) ->
  exists r, make_meds_input (infile :: mn :: mx :: idf :: more) fs = Ok r /\ r_status r = 1 /\ unchanged r fs /\ r_out r = [].
Proof. exact CProgLemmas.input_rejected. Qed.
Print Assumptions C85_rejected_partial.

Example C85_example : exists r, make_meds_input ["cat"; "16"; "100"; "ids"]%string ex_files = Ok r /\ r_status r = 0 /\
  r_out r = [(501, 7#2, 5#2, 24); (-502, 20#1, 31#1, 128)].
Proof. eexists. split; [vm_compute; reflexivity|]. split; vm_compute; reflexivity. Qed.

Example C85_rejected_example : exists r, make_meds_input ["cat"; "16"; "100"; "few"]%string ex_files = Ok r /\ r_status r = 1 /\
  r_out r = [].
Proof. eexists. split; [vm_compute; reflexivity|]. split; vm_compute; reflexivity. Qed.

(** An id file with something that is not an id is accepted if enough ids come first. *)
Theorem C85_words_rejected_refuted : exists fs infile mn mx idf rows words r,
  fs infile = Some (CCat rows) /\ fs idf = Some (CWords words) /\ In None words /\
  make_meds_input [infile; mn; mx; idf] fs = Ok r /\ r_status r = 0.
Proof.
  exists ex_files, "cat"%string, "16"%string, "100"%string, "long"%string. do 3 eexists.
  split; [reflexivity|]. split; [reflexivity|]. split; [cbn; tauto|]. split; [vm_compute; reflexivity|]. reflexivity.
Qed.
Print Assumptions C85_words_rejected_refuted.

(** Numbers of the command line. *)
Theorem C85_numbers_partial : forall ds rest, ds <> [] -> decimal ds -> no_digit_first rest ->
  atoi (text_of ds rest) = value_of ds /\ atoi (String "-" (text_of ds rest)) = - value_of ds.
Proof. exact CProgLemmas.atoi_ok. Qed.
Print Assumptions C85_numbers_partial.

Example C85_numbers_example : text_of [1; 0; 4] ".5" = "104.5"%string /\ atoi "104.5" = 104 /\ atoi "-7" = -7 /\ atoi "x" = 0.
Proof. repeat split. Qed.

(** * C86: meds-get-cutout *)
Theorem C86_mosaic_partial : forall creatable fs name out cf m, fs name = Some (CMeds cf) -> file_wf (cf_file cf) ->
  meds_open cf = Ok (Some m) ->
  forall i mos o, ext_find (m_ext (cf_file cf)) TImage = Some mos -> creatable out = true ->
  zget (m_cat (cf_file cf)) (atoi i) = Some o -> 0 < o_ncut o ->
  exists r im, meds_get_cutout creatable [name; out; i] fs = Ok r /\ r_status r = 0 /\
    get_mosaic (cf_file cf) (atoi i) TImage = Ok im /\ only_written r fs out im.
Proof. exact CProgLemmas.get_mosaic_written. Qed.
Print Assumptions C86_mosaic_partial.

Theorem C86_cutout_partial : forall creatable fs name out cf m, fs name = Some (CMeds cf) -> file_wf (cf_file cf) ->
  meds_open cf = Ok (Some m) ->
  forall i k more mos o s, ext_find (m_ext (cf_file cf)) TImage = Some mos -> creatable out = true ->
  cutout_at (cf_file cf) (atoi i) (atoi k) o s ->
  exists r im, meds_get_cutout creatable (name :: out :: i :: k :: more) fs = Ok r /\ r_status r = 0 /\
    get_cutout (cf_file cf) (atoi i) (atoi k) TImage = Ok im /\ only_written r fs out im.
Proof. exact CProgLemmas.get_cutout_written. Qed.
Print Assumptions C86_cutout_partial.

Theorem C86_nothing_written_partial : forall creatable fs name out cf m, fs name = Some (CMeds cf) -> file_wf (cf_file cf) ->
  meds_open cf = Ok (Some m) ->
  forall i rest, no_cutout (cf_file cf) (atoi i) (match rest with k :: _ => atoi k | [] => 0 end) ->
  exists r, meds_get_cutout creatable (name :: out :: i :: rest) fs = Ok r /\ r_status r = 0 /\ unchanged r fs.
Proof. exact CProgLemmas.get_nothing. Qed.
Print Assumptions C86_nothing_written_partial.

Theorem C86_other_files_partial : forall creatable args fs r name out rest, args = name :: out :: rest ->
  meds_get_cutout creatable args fs = Ok r -> forall n, n <> out -> r_files r n = fs n.
Proof. exact CProgLemmas.get_others. Qed.
Print Assumptions C86_other_files_partial.

Example C86_example : exists r, meds_get_cutout (fun _ => true) ["meds"; "out"; "0"; "1"]%string ex_files = Ok r /\
  r_files r "out"%string = Some (CImage (mkImg 2 2 (map inject_Z [14; 15; 16; 17]))).
Proof. eexists. split; [vm_compute; reflexivity|]. vm_compute. reflexivity. Qed.

(** The exit status does not tell a missing object. *)
Theorem C86_failure_status_refuted : exists fs args r, meds_get_cutout (fun _ => true) args fs = Ok r /\
  (forall n, r_files r n = fs n) /\ r_status r = 0 /\ args = ["meds"; "out"; "9"]%string.
Proof.
  exists ex_files. do 2 eexists. split; [|split; [|split; [|reflexivity]]].
  - vm_compute. reflexivity.
  - reflexivity.
  - reflexivity.
Qed.
Print Assumptions C86_failure_status_refuted.

(** A word in place of the index is read as 0. *)
Theorem C86_index_checked_refuted : exists fs args r im, meds_get_cutout (fun _ => true) args fs = Ok r /\
  args = ["meds"; "out"; "two"]%string /\ r_status r = 0 /\ only_written r fs "out" im.
Proof.
  exists ex_files, ["meds"; "out"; "two"]%string, (mkRun 0 [] (write_file ex_files "out" (CImage (mkImg 4 2 (map inject_Z [10; 11; 12; 13; 14; 15; 16; 17]))))).
  eexists. assert (E : meds_get_cutout (fun _ => true) ["meds"; "out"; "two"]%string ex_files =
    Ok (mkRun 0 [] (write_file ex_files "out" (CImage (mkImg 4 2 (map inject_Z [10; 11; 12; 13; 14; 15; 16; 17])))))) by reflexivity.
  split; [exact E|]. split; [reflexivity|]. split; [reflexivity|]. split; [reflexivity|].
  exact (C86_other_files_partial _ _ _ _ _ _ _ eq_refl E).
Qed.
Print Assumptions C86_index_checked_refuted.

(** The name of the MEDS file as output file: the MEDS file is replaced. *)
Theorem C86_input_kept_refuted : exists fs args cf r im, fs "meds"%string = Some (CMeds cf) /\
  meds_get_cutout (fun _ => true) args fs = Ok r /\ args = ["meds"; "meds"; "1"]%string /\
  r_files r "meds"%string = Some (CImage im).
Proof.
  exists ex_files. do 4 eexists. split; [reflexivity|]. split; [|split; [reflexivity|]].
  - vm_compute. reflexivity.
  - vm_compute. reflexivity.
Qed.
Print Assumptions C86_input_kept_refuted.
