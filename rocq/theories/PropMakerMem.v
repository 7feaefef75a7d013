(** Property theorems: makers and the arrays they are made from. *)
From Coq Require Import String.
From Verif Require Import Base Img Types MakerLayout MakerWrite MakerFile Meta MakerMem ExampleData SpecMakerMem MakerMemLemmas.
Open Scope Z_scope.

(** C124, the expectation: the file is that of the arrays the maker was made from,
    whatever the program does to its arrays between making and writing. *)
Theorem C124_refuted : exists vs m0 x acts m' h junk pjunk,
  own (length m0) x /\ make_maker vs x m0 = Ok (m', h) /\ Forall (not_writing 0) acts /\
  snd (mact vs (length m0) (mrun vs (length m0) (m0, []) (Make x :: acts)) (Write 0 junk pjunk)) <> Some (file_of vs x m0 junk pjunk).
Proof. exact makers_refuted. Qed.
Print Assumptions C124_refuted.

(** Replacing a psf, or psf_info, after making the maker. *)
Example C124_refuted_example :
  kx_psf (kx_write []) = Some 20 /\ kx_psf (kx_write kx_new_psfs) = Some 9 /\
  kx_pinfo (kx_write []) = Some (kx_info "a") /\ kx_pinfo (kx_write kx_new_info) = Some (kx_info "b").
Proof. vm_compute. repeat split. Qed.

(** C124, what holds: it is the file of the arrays as they were at that moment if the
    program leaves psf_data and psf_info alone, with other makers made and written
    before and after. *)
Theorem C124_partial : forall vs m0 acts1 x acts2 m' h junk pjunk,
  let n := length m0 in let st1 := mrun vs n (m0, []) acts1 in let st2 := mrun vs n (m0, []) (acts1 ++ Make x :: acts2) in
  own n x -> make_maker vs x (fst st1) = Ok (m', h) -> Forall (not_writing (length (snd st1))) acts2 -> Forall (spares x) acts2 ->
  snd (mact vs n st2 (Write (length (snd st1)) junk pjunk)) = Some (file_of vs x (changed m0 acts1) junk pjunk).
Proof. exact written_as_given. Qed.
Print Assumptions C124_partial.

(** obj_data, image_info and meta_data emptied after the maker was made. *)
Example C124_example : own 5 kx_args /\ Forall (not_writing 0) kx_spare /\ Forall (spares kx_args) kx_spare /\
  match kx_write kx_spare with Some (Ok (f, meta, _)) => Some (zlen (m_cat f), zlen (m_info f), meta) | _ => None end =
  Some (3, 3, ([("run", ["r1"]); ("numpy_version", ["1.1"]); ("esutil_version", ["2.2"]); ("fitsio_version", ["3.3"]);
                ("meds_version", ["4.4"]); ("meds_fmt_version", ["5.5"])]%string)).
Proof.
  split; [|split; [repeat constructor|split; [repeat constructor; discriminate|vm_compute; reflexivity]]].
  unfold own, kx_args; cbn. split; [|split; [|split; [|split]]]; try (intros a H; injection H as <-); repeat constructor.
Qed.

(** In general: obj_data, image_info and meta_data are those of the time the maker was
    made, psf_data and psf_info those of the time of the write. *)
Theorem C124_late_partial : forall vs m0 acts1 x acts2 m' h junk pjunk,
  let n := length m0 in let st1 := mrun vs n (m0, []) acts1 in let st2 := mrun vs n (m0, []) (acts1 ++ Make x :: acts2) in
  own n x -> make_maker vs x (fst st1) = Ok (m', h) -> Forall (not_writing (length (snd st1))) acts2 ->
  snd (mact vs n st2 (Write (length (snd st1)) junk pjunk)) =
    Some (expected vs x (changed m0 acts1) (changed m0 (acts1 ++ Make x :: acts2)) junk pjunk).
Proof. exact written_late. Qed.
Print Assumptions C124_late_partial.

(** Two makers, the first written before the second, which was made of other objects. *)
Example C124_late_example :
  let acts := [Make kx_args; Change 0 (GObj [ex_obj 11 1 3 (11#2) (9#2)])] in
  let st := mrun kx_versions 5 (kx_mem, []) (acts ++ [Make kx_args; Change 0 (GObj []); Write 0 ex_junk kx_pjunk]) in
  match snd (mact kx_versions 5 st (Write 1 ex_junk kx_pjunk)) with Some (Ok (f, _, _)) => map o_id (m_cat f) | _ => [] end = [11].
Proof. vm_compute. reflexivity. Qed.

(** No maker changes an array of the program: after any run they are what the program's
    own changes made them. *)
Theorem C124_arrays : forall vs m0 acts, firstn (length m0) (fst (mrun vs (length m0) (m0, []) acts)) = changed m0 acts.
Proof. exact given_kept. Qed.
Print Assumptions C124_arrays.

(** The program's objects after a write: no cutouts are filled in. *)
Example C124_arrays_example :
  match nth_error (fst (mrun kx_versions 5 (kx_mem, []) [Make kx_args; Write 0 ex_junk kx_pjunk])) 0 with
  | Some (GObj l) => (map o_ncut l, match kx_write [] with Some (Ok (f, _, _)) => map o_ncut (m_cat f) | _ => [] end)
  | _ => ([], []) end = ([0; 0; 0], [3; 1; 2]).
Proof. vm_compute. reflexivity. Qed.
