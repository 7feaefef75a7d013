(** Example data for PSF images of type f4. *)
From Coq Require Import String Lia Qpower Qabs.
From Verif Require Import Base Img Types BoundsM Reader MakerLayout MakerWrite MakerFile SpecFile ExampleData Typed SpecTyped PsfTy SpecPsfTy.
Open Scope Z_scope.

(** The double nearest to 1/10, an f4 and an integer image. *)
Definition tenth : Q := (3602879701896397 # 36028797018963968)%Q.
Definition ex_t8 : arr := mkArr (KF true) (mkImg 1 2 [NF (Fin tenth); NF (Fin (1 # 2))]).
Definition ex_t4 : arr := mkArr (KF false) (mkImg 2 1 [NF (Fin (3 # 4)); NF NaN]).
Definition ex_ti : arr := mkArr (KI true 32) (mkImg 1 3 [NI 7; NI 16777217; NI (-5)]).
Definition ex_big : arr := mkArr (KF true) (mkImg 1 1 [NF (Fin (inject_Z (2 ^ 128)))]).
Definition ex_tpsf (a : arr) : tpsf := mkTpsf (fun _ _ _ => a) None (fun _ _ => (1#2, 1#2)%Q).
Definition ex_tpsfs : list tpsf := [ex_tpsf ex_t8; ex_tpsf ex_t4; ex_tpsf ex_ti].
Definition ex_big_psfs : list tpsf := [ex_tpsf ex_t8; ex_tpsf ex_big; ex_tpsf ex_ti].
Definition ex_tmake (psfs : list tpsf) : res pfile :=
  make_psf_typed ex_conf ex_types ex_rows psfs ex_objs ex_junk (fun _ => NaN).
Definition ex_tfile : pfile :=
  match ex_tmake ex_tpsfs with Ok f => f | Err _ => mkPfile (mkMeds [] true PsfNone [] [] None) [] end.

Lemma ex_float (d : bool) (q : Q) (m e : Z) : (q == inject_Z m * Qpower (2#1) e)%Q ->
  (if d then - 2 ^ 53 < m < 2 ^ 53 /\ -1074 <= e /\ (Qabs q < Qpower (2#1) 1024)%Q
   else - 2 ^ 24 < m < 2 ^ 24 /\ -149 <= e /\ (Qabs q < Qpower (2#1) 128)%Q) -> num_ok (KF d) (NF (Fin q)).
Proof. intros E B. exists m, e. split; [exact E|exact B]. Qed.

Lemma ex_t8_ok : arr_ok ex_t8.
Proof.
  split; [repeat split; vm_compute; congruence|]. split; [|exact I]. repeat constructor.
  - apply (ex_float true _ 3602879701896397 (-55)); [vm_compute; reflexivity|repeat split; vm_compute; congruence].
  - apply (ex_float true _ 1 (-1)); [vm_compute; reflexivity|repeat split; vm_compute; congruence].
Qed.
Lemma ex_t4_ok : arr_ok ex_t4.
Proof.
  split; [repeat split; vm_compute; congruence|]. split; [|exact I]. repeat constructor.
  apply (ex_float false _ 3 (-2)); [vm_compute; reflexivity|repeat split; vm_compute; congruence].
Qed.
Lemma ex_ti_ok : arr_ok ex_ti.
Proof. split; [repeat split; vm_compute; congruence|]. split; [repeat constructor; vm_compute; congruence|split; vm_compute; congruence]. Qed.
Lemma ex_big_ok : arr_ok ex_big.
Proof.
  split; [repeat split; vm_compute; congruence|]. split; [|exact I]. repeat constructor.
  apply (ex_float true _ 1 128); [vm_compute; reflexivity|repeat split; vm_compute; congruence].
Qed.
Lemma ex_tpsfs_ok : psfs_ok ex_tpsfs.
Proof. intros p r c col [<-|[<-|[<-|[]]]]; [apply ex_t8_ok|apply ex_t4_ok|apply ex_ti_ok]. Qed.

Lemma ex_tmake_ok : make_psf_typed ex_conf ex_types ex_rows ex_tpsfs ex_objs ex_junk (fun _ => NaN) = Ok ex_tfile.
Proof. vm_compute. reflexivity. Qed.

Theorem exact_refuted : exists k types rows psfs input junk pjunk f iobj icut o s a im r c q y,
  psfs_ok psfs /\ make_psf_typed k types rows psfs input junk pjunk = Ok f /\
  cutout_at (pf_meds f) iobj icut o s /\ rendered_for k psfs o s a /\
  get_psf_typed f iobj icut = Ok im /\ px (a_im a) r c = Some (NF (Fin q)) /\ px im r c = Some (Fin y) /\ ~ (y == q)%Q.
Proof.
  destruct (zget (m_cat (pf_meds ex_tfile)) 0) as [o|] eqn:Eo; [|exfalso; vm_compute in Eo; discriminate].
  assert (En : 0 <= 0 < o_ncut o) by (vm_compute in Eo; injection Eo as <-; vm_compute; split; congruence).
  destruct (zget (o_slots o) 0) as [s|] eqn:Es; [|exfalso; vm_compute in Eo; injection Eo as <-; vm_compute in Es; discriminate].
  exists ex_conf, ex_types, ex_rows, ex_tpsfs, ex_objs, ex_junk, (fun _ => NaN), ex_tfile, 0, 0, o, s, ex_t8.
  destruct (get_psf_typed ex_tfile 0 0) as [im|] eqn:Ei; [|exfalso; vm_compute in Ei; discriminate].
  assert (Ep : px im 0 0 = Some (Fin (inject_Z 13421773 * Qpower (2#1) (-27))%Q)).
  { vm_compute in Ei. injection Ei as <-. vm_compute. reflexivity. }
  exists im, 0, 0, tenth, (inject_Z 13421773 * Qpower (2#1) (-27))%Q.
  split; [exact ex_tpsfs_ok|]. split; [exact ex_tmake_ok|]. split; [split; [exact Eo|split; [exact En|exact Es]]|].
  split.
  { exists (ex_tpsf ex_t8). split; [|reflexivity]. vm_compute in Eo. injection Eo as <-. vm_compute in Es. injection Es as <-. reflexivity. }
  split; [reflexivity|]. split; [reflexivity|]. split; [exact Ep|]. vm_compute. discriminate.
Qed.
