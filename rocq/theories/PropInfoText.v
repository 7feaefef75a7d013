(** Property theorems on the text columns of image_info: C119. *)
From Coq Require Import String Ascii.
From Verif Require Import Base Img Types MakerLayout WcsSel InfoText SpecInfoText.
From Verif Require InfoTextLemmas InfoTextLemmas2.
Open Scope Z_scope.

(** * C119 *)

(** A name that does not fit is cut without any error, and the name left may be the
    one of another image. *)
Theorem C119_names_refuted : exists path_len t1 t2 b, t1 <> t2 /\ clean t1 /\ clean t2 /\ is_ascii t1 /\ is_ascii t2 /\
  set_text path_len t1 = Ok b /\ set_text path_len t2 = Ok b /\ maker_path b = t2.
Proof. exact InfoTextLemmas2.names_confused. Qed.
Print Assumptions C119_names_refuted.

(** Every longer name is cut, to the same text as every other name that starts
    alike. *)
Theorem C119_longer_names : forall len t b, 0 <= len -> set_text len t = Ok b -> len < zlen t ->
  zlen (get_text b) <= len /\ get_text b <> t /\
  forall t', is_ascii t' -> firstn (Z.to_nat len) t' = firstn (Z.to_nat len) t -> set_text len t' = Ok b.
Proof. exact InfoTextLemmas.cut_names. Qed.
Print Assumptions C119_longer_names.

(** Names that fit are opened under their name, and get_source_path returns them,
    up to the blanks at the end that the file format may add. *)
Theorem C119_names_partial : forall len t b pad, 0 <= len -> set_text len t = Ok b -> zlen t <= len -> clean t ->
  maker_path b = t /\ (code pad = 0 \/ code pad = 32 -> strip (get_text (on_disk pad b)) = t).
Proof. exact InfoTextLemmas.names_kept. Qed.
Print Assumptions C119_names_partial.

(** Exactly which texts are kept, and which are refused. *)
Theorem C119_kept : forall len t b, 0 <= len -> set_text len t = Ok b -> (get_text b = t <-> zlen t <= len /\ no_nul_end t).
Proof. exact InfoTextLemmas.text_kept. Qed.
Print Assumptions C119_kept.
Theorem C119_refused : forall len t, (exists b, set_text len t = Ok b) <-> is_ascii t.
Proof. exact InfoTextLemmas2.refused. Qed.
Print Assumptions C119_refused.

(** An astrometry text that does not fit is never mistaken for another: the maker
    either works with the astrometry given or raises. *)
Theorem C119_astrometry : forall W psf has_text path_len wcs_len rows rows' h i,
  0 <= path_len -> 0 <= wcs_len -> accepts_json W -> Forall (row_ok path_len) rows ->
  mapM (stored_row path_len wcs_len) rows = Ok rows' ->
  get_wcs W psf has_text rows' h i = get_wcs W psf has_text rows h i \/
  (has_text = true /\ (exists e, get_wcs W psf has_text rows' h i = Err e) /\
   exists row, In row rows /\ wcs_len < zlen (of_str (i_text row))).
Proof. exact InfoTextLemmas.stored_wcs. Qed.
Print Assumptions C119_astrometry.

(** The version strings of the metadata are written in full. *)
Theorem C119_versions : forall v, is_ascii v -> no_nul_end v -> exists b, version_text v = Ok b /\ get_text b = v.
Proof. exact InfoTextLemmas.versions_kept. Qed.
Print Assumptions C119_versions.

Example C119_example :
  (let* rows := mapM (stored_row 20 100) ex_info_rows in
   let* hr := get_wcs ex_info_world None true rows [] 0 in Ok (map i_path rows, map wo_naxis (fst hr)))
  = Ok (["/data/im1.fits"%string], [(4, 4)]) /\
  (let* rows := mapM (stored_row 20 52) ex_info_rows in
   let* hr := get_wcs ex_info_world None true rows [] 0 in Ok (map i_path rows, map wo_naxis (fst hr))) = Err ValueError /\
  zlen (of_str ex_wcs_text) = 53.
Proof. repeat split; vm_compute; reflexivity. Qed.
Example C119_hypotheses_example : accepts_json ex_info_world /\ Forall (row_ok 20) ex_info_rows.
Proof. exact InfoTextLemmas2.ex_world_ok. Qed.
