(** Property theorems on the memory that the C accessors read: C112. *)
From Coq Require Import String.
From Verif Require Import Base Img Types Reader CLib SpecFile SpecCLib ExampleCLib.
From Verif Require CLibLemmas3.
Open Scope Z_scope.

(** * C112: refuted.  The row of image_info is not checked against its length. *)
Theorem C112_reference_refuted : exists cf m iobj icut, file_wf (cf_file cf) /\ meds_open cf = Ok (Some m) /\
  c_get_source_info m iobj icut = Err IndexError.
Proof.
  exists ex_cfile_short. eexists. exists 1, 0. split; [exact ex_cmeds_wf|]. split; vm_compute; reflexivity.
Qed.
Print Assumptions C112_reference_refuted.

(** When exactly that happens; negative file ids give NULL. *)
Theorem C112_reference_partial : forall cf m, meds_open cf = Ok (Some m) -> forall iobj icut,
  (c_get_source_info m iobj icut = Err IndexError /\
     exists o s, cutout_at (cf_file cf) iobj icut o s /\ zlen (m_info (cf_file cf)) <= s_file s) \/
  (exists x, c_get_source_info m iobj icut = Ok x /\
     forall o s, cutout_at (cf_file cf) iobj icut o s -> s_file s < zlen (m_info (cf_file cf))).
Proof. exact CLibLemmas3.info_exact. Qed.
Print Assumptions C112_reference_partial.

(** The others stay inside, for any two integers and any file that opens. *)
Theorem C112_centre_partial : forall cf m, meds_open cf = Ok (Some m) -> forall iobj icut,
  exists x, c_get_cutout_cen m iobj icut = Ok x /\ (fst (fst x) = true <-> exists o s, cutout_at (cf_file cf) iobj icut o s).
Proof. exact CLibLemmas3.cen_safe. Qed.
Print Assumptions C112_centre_partial.

Theorem C112_file_id_partial : forall cf m, meds_open cf = Ok (Some m) -> forall iobj icut,
  exists x, c_get_source_file_id m iobj icut = Ok x /\ forall o s, cutout_at (cf_file cf) iobj icut o s -> x = s_file s.
Proof. exact CLibLemmas3.file_id_safe. Qed.
Print Assumptions C112_file_id_partial.

Theorem C112_distortion_partial : forall cf m, meds_open cf = Ok (Some m) -> forall iobj icut,
  exists x, c_get_distortion m iobj icut = Ok x /\ (x <> None <-> exists o s, cutout_at (cf_file cf) iobj icut o s).
Proof. exact CLibLemmas3.distortion_safe. Qed.
Print Assumptions C112_distortion_partial.

Theorem C112_cutout_partial : forall cf m, meds_open cf = Ok (Some m) -> forall t iobj icut,
  exists x, c_get_cutout m t iobj icut = Ok x /\
  forall ci, x = Some ci -> exists o s, cutout_at (cf_file cf) iobj icut o s /\
    ci_cutout_nrow ci = o_box o /\ ci_cutout_ncol ci = o_box o /\
    forall r c, 0 <= r < o_box o -> 0 <= c < o_box o -> exists p, CUTOUT_GET ci r c = Ok p.
Proof. exact CLibLemmas3.cutout_safe. Qed.
Print Assumptions C112_cutout_partial.

Theorem C112_mosaic_partial : forall cf m, meds_open cf = Ok (Some m) -> forall t iobj,
  exists x, c_get_mosaic m t iobj = Ok x /\
  forall ci, x = Some ci -> exists o, zget (m_cat (cf_file cf)) iobj = Some o /\
    ci_ncutout ci = o_ncut o /\ ci_cutout_nrow ci = o_box o /\ ci_cutout_ncol ci = o_box o /\
    forall k r c, 0 <= k < o_ncut o -> 0 <= r < o_box o -> 0 <= c < o_box o -> exists p, MOSAIC_GET ci k r c = Ok p.
Proof. exact CLibLemmas3.mosaic_safe. Qed.
Print Assumptions C112_mosaic_partial.

Example C112_example :
  (let* om := meds_open ex_cfile_short in
   match om with
   | None => Err RuntimeError
   | Some m => let* f := c_get_source_file_id m 1 0 in let* i := c_get_source_info m 0 1 in
     let* c := c_get_cutout m TImage 1 0 in let* n := c_get_mosaic m TImage 0 in
     match i, c, n with
     | Some i, Some c, Some n => let* p := CUTOUT_GET c 0 0 in let* q := MOSAIC_GET n 1 1 1 in Ok (f, i_id i, p, q)
     | _, _, _ => Err RuntimeError
     end
   end) = Ok (2, 8, inject_Z 18, inject_Z 17).
Proof. vm_compute. reflexivity. Qed.
