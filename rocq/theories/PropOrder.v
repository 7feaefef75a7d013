(** The order of the images: C144. *)
From Coq Require Import String Permutation.
From Verif Require Import Base Img Types Reader MakerLayout MakerWrite MakerFile
  SpecFile SpecExtract SpecOrder ExampleData ExampleOrder.
From Verif Require OrderLemmas.
Open Scope Z_scope.

(** * C144 *)

(** The number of a cutout is not kept: with the coadd first in both, cutout 1 of the
    first object is from another image. *)
Theorem C144_place_refuted : exists k types rows1 rows2 move input junk pjunk f1 f2 i icut x y,
  reordered rows1 rows2 move /\ coadd_stays k move /\
  make_meds k types rows1 None input junk pjunk = Ok f1 /\
  make_meds k types rows2 None input junk pjunk = Ok f2 /\
  get_source_path f1 i icut = Ok x /\ get_source_path f2 i icut = Ok y /\ x <> y.
Proof.
  exists ex_conf, ex_types, ex_rows, ex_other_rows, ex_move, ex_objs, ex_junk, (fun _ => 0%Q).
  do 2 eexists. exists 0, 1, 71, 72.
  split; [exact ex_reordered|]. split; [intros _; reflexivity|].
  split; [vm_compute; reflexivity|]. split; [vm_compute; reflexivity|].
  split; [vm_compute; reflexivity|]. split; [vm_compute; reflexivity|discriminate].
Qed.
Print Assumptions C144_place_refuted.

(** And with the coadd moved from the first place an object may lose cutouts. *)
Theorem C144_coadd_refuted : exists k types rows1 rows2 move input junk pjunk f1 f2 i o1 o2,
  reordered rows1 rows2 move /\
  make_meds k types rows1 None input junk pjunk = Ok f1 /\
  make_meds k types rows2 None input junk pjunk = Ok f2 /\
  zget (m_cat f1) i = Some o1 /\ zget (m_cat f2) i = Some o2 /\
  o_ncut o1 = 1 /\ o_ncut o2 = 0.
Proof.
  exists ex_nocheck, ex_types, ex_rows, ex_last_rows, ex_last, ex_edge_objs, ex_junk, (fun _ => 0%Q).
  do 2 eexists. exists 1. do 2 eexists.
  split; [exact ex_last_reordered|].
  split; [vm_compute; reflexivity|]. split; [vm_compute; reflexivity|].
  split; [vm_compute; reflexivity|]. split; [vm_compute; reflexivity|]. split; reflexivity.
Qed.
Print Assumptions C144_coadd_refuted.

(** Every object has the same cutouts in both files, in another order. *)
Theorem C144_order_partial : forall k types1 types2 rows1 rows2 move psf1 psf2 input j1 j2 p1 p2 f1 f2,
  make_meds k types1 rows1 psf1 input j1 p1 = Ok f1 -> make_meds k types2 rows2 psf2 input j2 p2 = Ok f2 ->
  reordered rows1 rows2 move -> coadd_stays k move ->
  Forall (fun o => 1 <= o_box o) input -> Forall (fun r => source_ok (ir_src r)) rows1 -> 1 <= k_njob k ->
  psfs_fit psf1 -> psfs_fit psf2 -> psfs_moved (zlen rows1) move psf1 psf2 ->
  zlen (m_cat f1) = zlen (m_cat f2) /\
  forall i o1, zget (m_cat f1) i = Some o1 ->
  exists o2, zget (m_cat f2) i = Some o2 /\
    o_id o1 = o_id o2 /\ o_number o1 = o_number o2 /\ o_ra o1 = o_ra o2 /\ o_dec o1 = o_dec o2 /\
    o_box o1 = o_box o2 /\ o_ncut o1 = o_ncut o2 /\
    exists order, Permutation order (zrange (o_ncut o1)) /\
      forall c1 c2, zget order c1 = Some c2 ->
        moved_cutout rows1 move f1 f2 i c1 c2 /\ (psf1 <> None -> moved_psf f1 f2 i c1 c2).
Proof. exact OrderLemmas.order_made. Qed.
Print Assumptions C144_order_partial.

(** What can be made in one order can be made in the other. *)
Theorem C144_writable_partial : forall k req rows1 rows2 move input junk pjunk,
  reordered rows1 rows2 move -> coadd_stays k move ->
  layout_possible (k_l k) (map ir_image rows1) input ->
  Forall (fun o => 0 <= o_box o) input -> Forall (fun r => source_ok (ir_src r)) rows1 ->
  (forall t, t = TImage \/ In t req ->
     fill_value t <> None /\ forall r, In r rows1 -> readable (k_unusable k) (ir_src r) t) ->
  exists f1 f2, make_meds k (map ctype_name req) rows1 None input junk pjunk = Ok f1 /\
    make_meds k (map ctype_name req) rows2 None input junk pjunk = Ok f2.
Proof. exact OrderLemmas.order_writable. Qed.
Print Assumptions C144_writable_partial.

(** The images after the coadd exchanged, with their psfs: the first object, in all
    three images, has its cutouts in the order 0, 2, 1; the third, in the first two
    of the images, is as before, though its second cutout is now from image 2. *)
Example C144_example : exists f1 f2,
  ex_make (Some ex_psfs) = Ok f1 /\
  make_meds ex_conf ex_types ex_other_rows (Some ex_other_psfs) ex_objs ex_junk (fun _ => 0%Q) = Ok f2 /\
  reordered ex_rows ex_other_rows ex_move /\ coadd_stays ex_conf ex_move /\
  psfs_moved (zlen ex_rows) ex_move (Some ex_psfs) (Some ex_other_psfs) /\
  map o_ncut (m_cat f1) = [3; 1; 2] /\ map o_ncut (m_cat f2) = [3; 1; 2] /\
  get_cutout f1 0 1 TImage = get_cutout f2 0 2 TImage /\ get_cutout f1 0 2 TWeight = get_cutout f2 0 1 TWeight /\
  get_psf f1 0 1 = get_psf f2 0 2 /\ get_psf f1 0 2 = get_psf f2 0 1 /\
  get_psf f2 0 2 = Ok (mkImg 3 2 [300; 301; 310; 311; 320; 321]%Q) /\
  map (fun o => map s_file (o_slots o)) (m_cat f1) = [[0; 1; 2]; [0; -9999; -9999]; [0; 1; -9999]] /\
  map (fun o => map s_file (o_slots o)) (m_cat f2) = [[0; 1; 2]; [0; -9999; -9999]; [0; 2; -9999]] /\
  get_cutout f1 2 1 TSeg = get_cutout f2 2 1 TSeg.
Proof.
  do 2 eexists. split; [vm_compute; reflexivity|]. split; [vm_compute; reflexivity|].
  split; [exact ex_reordered|]. split; [intros _; reflexivity|]. split; [exact ex_psfs_moved|].
  repeat (split; [vm_compute; reflexivity|]). vm_compute; reflexivity.
Qed.
