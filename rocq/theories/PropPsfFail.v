(** C140: what the PSF extension holds after a PSF object failed. *)
From Coq Require Import String.
From Verif Require Import Base Img Types BoundsM Reader MakerLayout MakerWrite MakerFile MakerFail SpecFile ExampleData Typed SpecTyped PsfTy SpecPsfTy
  PsfState SpecPsfState PsfFail SpecPsfFail ExamplePsfState ExamplePsfFail.
From Verif Require PsfFailLemmas3.
Open Scope Z_scope.

(** False: the PSFs that were rendered before the one that raises are in the file.
    With joblib nothing is written before all jobs are done. *)
Theorem C140_lost_refuted : exists k types rows (psfs : list (spsf unit)) input junk, arrays_ok psfs tt /\ own_arrays psfs tt /\ forall pjunk, exists f g v,
  make_disk k (Some (1, fun _ => true)) types rows psfs tt input junk pjunk None = (Some f, Some RuntimeError) /\
  make_disk k None types rows psfs tt input junk pjunk None = (Some g, Some RuntimeError) /\
  get_psf_typed f 0 0 = Ok (mkImg 1 1 [pjunk 0]) /\ get_psf_typed g 0 0 = Ok (mkImg 1 1 [Fin v]) /\ (v == 134)%Q.
Proof. exact ExamplePsfFail.lost_refuted. Qed.
Print Assumptions C140_lost_refuted.

(** True serially.  When the write fails after the file was opened, either the images
    failed, as they would without PSFs, and no PSF is written; or the images are all
    there, and the PSFs of the cutouts before the one that raises or does not fit. *)
Theorem C140_serial_partial : forall (St : Type) k types rows (psfs : list (spsf St)) st input junk pjunk qjunk f e, arrays_ok psfs st ->
  make_disk k None types rows psfs st input junk pjunk None = (Some f, Some e) ->
  (make_meds k types rows None input junk qjunk = Err e /\
   forall iobj icut o s, cutout_at (pf_meds f) iobj icut o s -> untouched f pjunk iobj icut s) \/
  ((exists f0, make_meds k types rows None input junk qjunk = Ok f0 /\ forall t, ext_find (m_ext (pf_meds f)) t = ext_find (m_ext f0) t) /\
   up_to k psfs st f pjunk e (fun o s => raises k psfs st o s e \/ unfit k psfs st o s e)).
Proof. exact @PsfFailLemmas3.left_serial. Qed.
Print Assumptions C140_serial_partial.

(** With joblib no PSF is written when one raises, and those before the one that does
    not fit otherwise. *)
Theorem C140_joblib_partial : forall (St : Type) k types rows (psfs : list (spsf St)) st input junk pjunk qjunk f e, arrays_ok psfs st ->
  forall n fresh, 1 <= n -> own_arrays psfs st ->
  make_disk k (Some (n, fresh)) types rows psfs st input junk pjunk None = (Some f, Some e) ->
  (make_meds k types rows None input junk qjunk = Err e /\
   forall iobj icut o s, cutout_at (pf_meds f) iobj icut o s -> untouched f pjunk iobj icut s) \/
  ((exists f0, make_meds k types rows None input junk qjunk = Ok f0 /\ forall t, ext_find (m_ext (pf_meds f)) t = ext_find (m_ext f0) t) /\
   ((exists iobj icut o s, cutout_at (pf_meds f) iobj icut o s /\ raises k psfs st o s e) /\
    (forall iobj icut o s, cutout_at (pf_meds f) iobj icut o s -> untouched f pjunk iobj icut s) \/
    up_to k psfs st f pjunk e (fun o s => unfit k psfs st o s e))).
Proof. exact @PsfFailLemmas3.left_joblib. Qed.
Print Assumptions C140_joblib_partial.

(** The old file of that name is kept or replaced, never mixed with the new one. *)
Theorem C140_old_partial : forall (St : Type) k types rows (psfs : list (spsf St)) st input junk pjunk jl old,
  make_disk k jl types rows psfs st input junk pjunk old =
    (match fst (make_disk k jl types rows psfs st input junk pjunk None) with None => old | Some f => Some f end,
     snd (make_disk k jl types rows psfs st input junk pjunk None)).
Proof. exact @PsfFailLemmas3.left_old. Qed.
Print Assumptions C140_old_partial.

(** Without an exception the file is the one of C139; with one, it is the same. *)
Theorem C140_complete_partial : forall (St : Type) k jl types rows (psfs : list (spsf St)) st input junk pjunk old,
  match make_state k jl types rows psfs st input junk pjunk with
  | Ok f => make_disk k jl types rows psfs st input junk pjunk old = (Some f, None)
  | Err e => snd (make_disk k jl types rows psfs st input junk pjunk old) = Some e
  end.
Proof. exact @PsfFailLemmas3.disk_agrees. Qed.
Print Assumptions C140_complete_partial.

(** Objects that fail for the sixth and last cutout: they raise, or return an image of
    another shape. *)
Example C140_example_hypotheses : arrays_ok (ex_frails ex_raise) tt /\ own_arrays (ex_frails ex_raise) tt.
Proof. split; [apply ex_frails_ok; discriminate|apply ex_frails_own]. Qed.
Example C140_example_raise : ex_left (ex_disk ex_raise None (fun _ => NaN)) [(0, 0); (0, 1); (0, 2); (1, 0); (2, 0); (2, 1)] =
  (Some [Ok [fround true 134]; Ok [fround true 213]; Ok [fround true 300]; Ok [fround true 100]; Ok [fround true 153]; Ok [NaN]], Some RuntimeError).
Proof. vm_compute. reflexivity. Qed.
Example C140_example_joblib : ex_left (ex_disk ex_raise (Some (2, fun _ => true)) (fun _ => NaN)) [(0, 0); (0, 1); (0, 2); (1, 0); (2, 0); (2, 1)] =
  (Some [Ok [NaN]; Ok [NaN]; Ok [NaN]; Ok [NaN]; Ok [NaN]; Ok [NaN]], Some RuntimeError).
Proof. vm_compute. reflexivity. Qed.
Example C140_example_shape : ex_left (ex_disk ex_wrong (Some (2, fun _ => true)) (fun _ => NaN)) [(0, 0); (0, 1); (0, 2); (1, 0); (2, 0); (2, 1)] =
  (Some [Ok [fround true 134]; Ok [fround true 213]; Ok [fround true 300]; Ok [fround true 100]; Ok [fround true 153]; Ok [NaN]], Some ValueError).
Proof. vm_compute. reflexivity. Qed.
