(** C130: PSF images are kept to single precision. *)
From Coq Require Import String Qpower Qabs.
From Verif Require Import Base Img Types BoundsM Reader MakerLayout MakerWrite MakerFile SpecTiles SpecFile ExampleData
  Typed SpecTyped PsfTy SpecPsfTy ExamplePsfTy PsfTyLemmas PsfTyLemmas2 PsfTyLemmas3.
Open Scope Z_scope.

(** Claim: get_psf returns the numbers that get_rec rendered.  False for doubles. *)
Theorem C130_exact_refuted : exists k types rows psfs input junk pjunk f iobj icut o s a im r c q y,
  psfs_ok psfs /\ make_psf_typed k types rows psfs input junk pjunk = Ok f /\
  cutout_at (pf_meds f) iobj icut o s /\ rendered_for k psfs o s a /\
  get_psf_typed f iobj icut = Ok im /\ px (a_im a) r c = Some (NF (Fin q)) /\ px im r c = Some (Fin y) /\ ~ (y == q)%Q.
Proof. exact ExamplePsfTy.exact_refuted. Qed.
Print Assumptions C130_exact_refuted.

(** It returns, in the same shape, for each the nearest number of type f4. *)
Theorem C130_nearest_partial : forall k types rows psfs input junk pjunk f, psfs_ok psfs ->
  make_psf_typed k types rows psfs input junk pjunk = Ok f ->
  forall iobj icut o s, cutout_at (pf_meds f) iobj icut o s ->
  exists a, rendered_for k psfs o s a /\ s_psf_nr s = nr (a_im a) /\ s_psf_nc s = nc (a_im a) /\
    (0 < nr (a_im a) * nc (a_im a) ->
     exists im, get_psf_typed f iobj icut = Ok im /\ nr im = nr (a_im a) /\ nc im = nc (a_im a) /\
       forall r c x, px (a_im a) r c = Some x -> exists v, px im r c = Some v /\ kept x v).
Proof. exact PsfTyLemmas3.typed_nearest. Qed.
Print Assumptions C130_nearest_partial.

(** So that numbers of type f4 come back as they are. *)
Theorem C130_single : forall x v q, kept x v -> value x q -> is_float false q -> exists y, v = Fin y /\ (y == q)%Q.
Proof. exact PsfTyLemmas3.typed_exact_pixels. Qed.
Print Assumptions C130_single.

(** The sum of the pixels keeps a relative accuracy of 2^-24. *)
Theorem C130_sum : forall k types rows psfs input junk pjunk f, psfs_ok psfs ->
  make_psf_typed k types rows psfs input junk pjunk = Ok f ->
  forall iobj icut o s a qs, cutout_at (pf_meds f) iobj icut o s -> rendered_for k psfs o s a ->
  0 < nr (a_im a) * nc (a_im a) -> Forall2 value (dat (a_im a)) qs ->
  exists im ys, get_psf_typed f iobj icut = Ok im /\ dat im = map Fin ys /\
    (Qabs (qsum ys - qsum qs) <= Qpower (2#1) (-24) * qasum qs + inject_Z (nr (a_im a) * nc (a_im a)) * Qpower (2#1) (-150))%Q.
Proof. exact PsfTyLemmas3.typed_sum. Qed.
Print Assumptions C130_sum.

(** The order of the pixels is kept: the brightest one stays the brightest. *)
Theorem C130_order : forall k types rows psfs input junk pjunk f, psfs_ok psfs ->
  make_psf_typed k types rows psfs input junk pjunk = Ok f ->
  forall iobj icut o s a im r1 c1 r2 c2 x1 x2 q1 q2, cutout_at (pf_meds f) iobj icut o s -> rendered_for k psfs o s a ->
  get_psf_typed f iobj icut = Ok im ->
  px (a_im a) r1 c1 = Some x1 -> px (a_im a) r2 c2 = Some x2 -> value x1 q1 -> value x2 q2 -> (q1 <= q2)%Q ->
  exists y1 y2, px im r1 c1 = Some (Fin y1) /\ px im r2 c2 = Some (Fin y2) /\ (y1 <= y2)%Q.
Proof. exact PsfTyLemmas3.typed_order. Qed.
Print Assumptions C130_order.

(** Writing fails exactly when a double is infinite or beyond the largest f4. *)
Theorem C130_too_large : forall k types rows psfs input junk pjunk qjunk f',
  make_meds (with_joblib k false 1) types rows (Some (map shape_of psfs)) input junk qjunk = Ok f' ->
  ((forall iobj icut o s a x, cutout_at f' iobj icut o s -> rendered_for k psfs o s a -> In x (dat (a_im a)) -> ~ too_large a x) ->
   exists f, make_psf_typed k types rows psfs input junk pjunk = Ok f /\ m_cat (pf_meds f) = m_cat f') /\
  (forall iobj icut o s a x, cutout_at f' iobj icut o s -> rendered_for k psfs o s a -> In x (dat (a_im a)) -> too_large a x ->
   make_psf_typed k types rows psfs input junk pjunk = Err FitsError).
Proof. exact PsfTyLemmas3.typed_fails. Qed.
Print Assumptions C130_too_large.

(** get_psf_list returns what get_psf returns, for each cutout. *)
Theorem C130_list : forall k types rows psfs input junk pjunk f, psfs_ok psfs ->
  make_psf_typed k types rows psfs input junk pjunk = Ok f ->
  forall iobj o, zget (m_cat (pf_meds f)) iobj = Some o ->
  (forall icut s a, cutout_at (pf_meds f) iobj icut o s -> rendered_for k psfs o s a -> 0 < nr (a_im a) * nc (a_im a)) ->
  exists ims, get_psf_list_typed f iobj = Ok ims /\ zlen ims = o_ncut o /\
    forall icut im, zget ims icut = Some im -> get_psf_typed f iobj icut = Ok im.
Proof. exact PsfTyLemmas3.typed_list. Qed.
Print Assumptions C130_list.

(** A double, an f4 and an integer PSF; 2^24 + 1 becomes 2^24. *)
Example C130_example_hypotheses : psfs_ok ex_tpsfs /\
  make_psf_typed ex_conf ex_types ex_rows ex_tpsfs ex_objs ex_junk (fun _ => NaN) = Ok ex_tfile.
Proof. split; [exact ex_tpsfs_ok|exact ex_tmake_ok]. Qed.
Example C130_example :
  (let* a := get_psf_typed ex_tfile 0 0 in let* b := get_psf_typed ex_tfile 0 1 in let* c := get_psf_typed ex_tfile 0 2 in
   let* l := get_psf_list_typed ex_tfile 0 in
   Ok (map (fcast true) (dat a), (nr b, nc b, dat b), map (fcast true) (dat c), length l)) =
  Ok ([fround true (13421773 # 134217728); fround true (1 # 2)], (2, 1, [fround false (3 # 4); NaN]),
      [fround true 7; fround true 16777216; fround true (-5)], 3%nat).
Proof. vm_compute. reflexivity. Qed.
Example C130_example_large : ex_tmake ex_big_psfs = Err FitsError /\ psfs_ok ex_big_psfs /\ too_large ex_big (NF (Fin (inject_Z (2 ^ 128)))) /\
  (let* f := make_meds (with_joblib ex_conf false 1) ex_types ex_rows (Some (map shape_of ex_big_psfs)) ex_objs ex_junk (fun _ => 0%Q) in
   Ok (map o_ncut (m_cat f))) = Ok [3; 1; 2].
Proof.
  split; [vm_compute; reflexivity|]. split; [|split; [split; [reflexivity|vm_compute; reflexivity]|vm_compute; reflexivity]].
  intros p r c col [<-|[<-|[<-|[]]]]; [apply ex_t8_ok|apply ex_big_ok|apply ex_ti_ok].
Qed.
