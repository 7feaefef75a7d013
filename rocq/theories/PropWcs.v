(** C114 and C115: the WCS of each image.  Theorems only. *)
From Coq Require Import String.
From Verif Require Import Base Img Types BoundsM MakerLayout WcsSel SpecWcs ExampleData WcsLemmas WcsLemmas2 WcsLemmas3.
Open Scope Z_scope.

(** * C114 *)
Theorem C114_own_astrometry : forall W psf has_text rows h, psf_ok psf rows h -> forall c cat r,
  (exists g, layout_with W psf has_text rows c h cat = Ok (g, r)) <->
  exists images, Forall2 (own W psf has_text rows h) (zrange (zlen rows)) images /\ build_layout c images cat = Ok r.
Proof. exact layout_own. Qed.
Print Assumptions C114_own_astrometry.

(** Each image has at most one astrometry. *)
Theorem C114_one_astrometry : forall W psf has_text rows h, psf_ok psf rows h -> forall i im im',
  0 <= i < zlen rows -> own W psf has_text rows h i im -> own W psf has_text rows h i im' -> im = im'.
Proof. exact own_one. Qed.
Print Assumptions C114_one_astrometry.

(** Two images of different size whose psfs share a WCS object: each is laid out with its own size. *)
Example C114_example :
  psf_ok (Some ex_psfw) ex_irows ex_heap /\
  own ex_world (Some ex_psfw) false ex_irows ex_heap 0 (picture (ex_sky 5) (40, 30) 1) /\
  own ex_world (Some ex_psfw) false ex_irows ex_heap 1 (picture (ex_sky 5) (20, 10) 0) /\
  (let* r := layout_with ex_world (Some ex_psfw) false ex_irows (ex_lconf false false false false 0) ex_heap
               (init_cat (ex_lconf false false false false 0) [picture (ex_sky 5) (40, 30) 1; picture (ex_sky 5) (20, 10) 0]
                 [ex_obj 11 1 4 5 9; ex_obj 12 2 2 20 9]) in
   Ok (map o_ncut (fst (snd r)), map (fun w => (wo_naxis w, wo_offset w)) (fst r))) = Ok ([2; 1], [((20, 10), Some 0%Q)]).
Proof. exact ex_wcs_facts. Qed.

(** * C115 *)
Theorem C115_unchanged_refuted : exists W psf rows h c cat g r,
  psf_ok psf rows h /\ layout_with W psf false rows c h cat = Ok (g, r) /\ ~ (forall k w, nth_error h k = Some w -> nth_error g k = Some w).
Proof. exact changed_refuted. Qed.
Print Assumptions C115_unchanged_refuted.

(** What happens to the objects of the caller. *)
Theorem C115_objects_partial : forall W psf has_text rows h, psf_ok psf rows h -> forall c cat g r k w,
  layout_with W psf has_text rows c h cat = Ok (g, r) -> nth_error h k = Some w ->
  exists w', nth_error g k = Some w' /\ wo_sky w' = wo_sky w /\
    ((forall i, 0 <= i < zlen rows -> ~ shares psf i k) -> w' = w) /\
    (forall i, 0 <= i < zlen rows -> shares psf i k -> (forall j, i < j < zlen rows -> ~ shares psf j k) ->
       exists row hdr n, zget rows i = Some row /\ read_header W (i_path row) (i_ext row) = Ok hdr /\ sized hdr n /\
         w' = mkWobj (wo_sky w) n (Some (i_offset row))).
Proof. exact layout_effect. Qed.
Print Assumptions C115_objects_partial.

(** Both images share the object; the second image decides. *)
Example C115_example : psf_ok (Some ex_psfw) ex_irows ex_heap /\ shares (Some ex_psfw) 0 0%nat /\ shares (Some ex_psfw) 1 0%nat /\ zlen ex_irows = 2 /\
  nth_error ex_heap 0 = Some (mkWobj (ex_sky 5) (1, 1) None) /\
  (let* r := layout_with ex_world (Some ex_psfw) false ex_irows (ex_lconf false false false false 0) ex_heap
               (init_cat (ex_lconf false false false false 0) [picture (ex_sky 5) (40, 30) 1; picture (ex_sky 5) (20, 10) 0]
                 [ex_obj 11 1 4 5 9; ex_obj 12 2 2 20 9]) in
   Ok (map (fun w => (wo_naxis w, wo_offset w)) (fst r))) = Ok [((20, 10), Some 0%Q)].
Proof.
  split; [exact ex_psf_ok|]. split; [eexists; split; reflexivity|]. split; [eexists; split; reflexivity|]. split; [reflexivity|].
  split; [reflexivity|]. vm_compute. reflexivity.
Qed.
