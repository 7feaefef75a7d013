(** Images left out: C145. *)
From Coq Require Import String Sorted.
From Verif Require Import Base Img Types Reader MakerLayout MakerWrite MakerFile
  SpecFile SpecExtract SpecOrder SpecLeave ExampleData ExampleLeave.
From Verif Require LeaveLemmas.
Open Scope Z_scope.

(** * C145 *)

(** With a coadd left out the file may hold cutouts that the file of all images has not. *)
Theorem C145_coadd_refuted : exists k types rows1 rows2 move input junk pjunk f1 f2 i o1 o2 x y,
  left_out rows1 rows2 move /\
  make_meds k types rows1 None input junk pjunk = Ok f1 /\
  make_meds k types rows2 None input junk pjunk = Ok f2 /\
  zget (m_cat f1) i = Some o1 /\ zget (m_cat f2) i = Some o2 /\ o_ncut o1 = 1 /\ o_ncut o2 = 1 /\
  get_source_path f1 i 0 = Ok x /\ get_source_path f2 i 0 = Ok y /\ x <> y.
Proof.
  exists ex_unchecked, ex_types, ex_nocoadd_rows, ex_rows, ex_next, ex_side_objs, ex_junk, (fun _ => 0%Q).
  do 2 eexists. exists 0. do 2 eexists. exists 71, 70.
  split; [exact ex_nocoadd_left_out|].
  split; [vm_compute; reflexivity|]. split; [vm_compute; reflexivity|].
  split; [vm_compute; reflexivity|]. split; [vm_compute; reflexivity|].
  split; [reflexivity|]. split; [reflexivity|].
  split; [vm_compute; reflexivity|]. split; [vm_compute; reflexivity|discriminate].
Qed.
Print Assumptions C145_coadd_refuted.

(** The cutouts of each object are those of the file of all images, without those from
    the images left out, in the same order. *)
Theorem C145_cutouts_partial : forall k types1 types2 rows1 rows2 move psf1 psf2 input j1 j2 p1 p2 f1 f2,
  make_meds k types1 rows1 psf1 input j1 p1 = Ok f1 -> make_meds k types2 rows2 psf2 input j2 p2 = Ok f2 ->
  left_out rows1 rows2 move -> coadd_stays k move ->
  Forall (fun o => 1 <= o_box o) input -> Forall (fun r => source_ok (ir_src r)) rows2 -> 1 <= k_njob k ->
  psfs_fit psf1 -> psfs_fit psf2 -> psfs_moved (zlen rows1) move psf1 psf2 ->
  zlen (m_cat f1) = zlen (m_cat f2) /\
  forall i o1, zget (m_cat f1) i = Some o1 ->
  exists o2, zget (m_cat f2) i = Some o2 /\
    o_id o1 = o_id o2 /\ o_number o1 = o_number o2 /\ o_ra o1 = o_ra o2 /\ o_dec o1 = o_dec o2 /\
    o_box o1 = o_box o2 /\ o_ncut o1 <= o_ncut o2 /\
    exists kept, StronglySorted Z.lt kept /\ zlen kept = o_ncut o1 /\
      (forall c, In c kept <-> from_kept (zlen rows1) move o2 c) /\
      forall c1 c2, zget kept c1 = Some c2 ->
        moved_cutout rows1 move f1 f2 i c1 c2 /\ (psf1 <> None -> moved_psf f1 f2 i c1 c2).
Proof. exact LeaveLemmas.leave_made. Qed.
Print Assumptions C145_cutouts_partial.

(** What can be made with all the images can be made with some of them. *)
Theorem C145_writable_partial : forall k req rows1 rows2 move input junk pjunk,
  left_out rows1 rows2 move -> coadd_stays k move -> rows1 <> [] ->
  layout_possible (k_l k) (map ir_image rows2) input ->
  Forall (fun o => 0 <= o_box o) input -> Forall (fun r => source_ok (ir_src r)) rows2 ->
  (forall t, t = TImage \/ In t req ->
     fill_value t <> None /\ forall r, In r rows2 -> readable (k_unusable k) (ir_src r) t) ->
  exists f1 f2, make_meds k (map ctype_name req) rows1 None input junk pjunk = Ok f1 /\
    make_meds k (map ctype_name req) rows2 None input junk pjunk = Ok f2.
Proof. exact LeaveLemmas.leave_writable. Qed.
Print Assumptions C145_writable_partial.

(** The image after the coadd left out: the first object keeps its cutouts 0 and 2, the
    last one only that of the coadd. *)
Example C145_example : exists f1 f2,
  make_meds ex_conf ex_types ex_kept_rows (Some ex_kept_psfs) ex_objs ex_junk (fun _ => 0%Q) = Ok f1 /\
  ex_make (Some ex_psfs) = Ok f2 /\
  left_out ex_kept_rows ex_rows ex_skip /\ coadd_stays ex_conf ex_skip /\
  psfs_moved (zlen ex_kept_rows) ex_skip (Some ex_kept_psfs) (Some ex_psfs) /\
  map o_ncut (m_cat f1) = [2; 1; 1] /\ map o_ncut (m_cat f2) = [3; 1; 2] /\
  map (fun o => map s_file (o_slots o)) (m_cat f1) = [[0; 1]; [0; -9999]; [0; -9999]] /\
  get_cutout f1 0 1 TImage = get_cutout f2 0 2 TImage /\ get_psf f1 0 1 = get_psf f2 0 2 /\
  get_source_info f1 0 1 = get_source_info f2 0 2 /\ get_source_path f2 0 2 = Ok 72.
Proof.
  do 2 eexists. split; [vm_compute; reflexivity|]. split; [vm_compute; reflexivity|].
  split; [exact ex_left_out|]. split; [intros _; reflexivity|]. split; [exact ex_kept_psfs_moved|].
  repeat (split; [vm_compute; reflexivity|]). vm_compute; reflexivity.
Qed.
