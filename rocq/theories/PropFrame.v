(** Images in larger frames: C146. *)
From Coq Require Import String.
From Verif Require Import Base Img Types Reader MakerLayout MakerWrite MakerFile
  SpecFile SpecExtract SpecFrame ExampleData ExampleFrame.
From Verif Require FrameLemmas.
Open Scope Z_scope.

(** * C146 *)

(** An object in the buffer before the first row of the coadd gets its cutout one row
    off: the position is rounded towards zero, so that its place in the cutout differs. *)
Theorem C146_buffer_refuted : exists k types rows1 rows2 dr dc input junk pjunk f1 f2 o1 o2 s1 s2,
  frames dr dc rows1 rows2 /\
  make_meds k types rows1 None input junk pjunk = Ok f1 /\
  make_meds k types rows2 None input junk pjunk = Ok f2 /\
  cutout_at f1 0 0 o1 s1 /\ cutout_at f2 0 0 o2 s2 /\ s_file s1 = 0 /\ s_file s2 = 0 /\
  s_osr s2 <> s_osr s1 + dr 0 /\ (s_crow s1 == 1 # 2)%Q /\ (s_crow s2 == 3 # 2)%Q.
Proof.
  exists ex_conf, ex_types, ex_rows, ex_big_rows, ex_dr, ex_dc, ex_above, ex_junk, (fun _ => 0%Q).
  do 6 eexists. split; [exact ex_frames|].
  split; [vm_compute; reflexivity|]. split; [vm_compute; reflexivity|].
  split; [split; [vm_compute; reflexivity|split; [vm_compute; split; [discriminate|reflexivity]|vm_compute; reflexivity]]|].
  split; [split; [vm_compute; reflexivity|split; [vm_compute; split; [discriminate|reflexivity]|vm_compute; reflexivity]]|].
  split; [reflexivity|]. split; [reflexivity|]. split; [discriminate|]. split; reflexivity.
Qed.
Print Assumptions C146_buffer_refuted.

Theorem C146_frames_partial : forall k types1 types2 rows1 rows2 dr dc psf1 psf2 input j1 j2 p1 p2 f1 f2,
  first_image_is_coadd (k_l k) && trim_to_coadd (k_l k) = false ->
  make_meds k types1 rows1 psf1 input j1 p1 = Ok f1 -> make_meds k types2 rows2 psf2 input j2 p2 = Ok f2 ->
  frames dr dc rows1 rows2 ->
  Forall (fun o => 1 <= o_box o) input -> Forall (fun r => source_ok (ir_src r)) rows1 ->
  Forall (fun r => source_ok (ir_src r)) rows2 -> 1 <= k_njob k ->
  psfs_fit psf1 -> psfs_fit psf2 -> psfs_in_frames dr dc psf1 psf2 ->
  forall i c1 o1 s1, cutout_at f1 i c1 o1 s1 ->
  exists c2 o2 s2, cutout_at f2 i c2 o2 s2 /\ s_file s2 = s_file s1 /\ o_box o2 = o_box o1 /\
    (s_orow s2 == s_orow s1 + inject_Z (dr (s_file s1)))%Q /\ (s_ocol s2 == s_ocol s1 + inject_Z (dc (s_file s1)))%Q /\
    s_dudrow s2 = s_dudrow s1 /\ s_dudcol s2 = s_dudcol s1 /\ s_dvdrow s2 = s_dvdrow s1 /\ s_dvdcol s2 = s_dvdcol s1 /\
    (psf1 <> None -> exists im, get_psf f1 i c1 = Ok im /\ get_psf f2 i c2 = Ok im) /\
    ((0 <= s_orow s1)%Q -> s_osr s2 = s_osr s1 + dr (s_file s1) /\ (s_crow s2 == s_crow s1)%Q) /\
    ((0 <= s_ocol s1)%Q -> s_osc s2 = s_osc s1 + dc (s_file s1) /\ (s_ccol s2 == s_ccol s1)%Q) /\
    ((0 <= s_orow s1)%Q -> (0 <= s_ocol s1)%Q -> forall row t,
       zget rows1 (s_file s1) = Some row -> has_file (ir_src row) t ->
       In t (map fst (m_ext f1)) -> In t (map fst (m_ext f2)) ->
       same_pixels f1 f2 i c1 c2 s1 (o_box o1) (ir_src row) t).
Proof. exact FrameLemmas.frame_cutouts. Qed.
Print Assumptions C146_frames_partial.

(** The second object is at a corner of the coadd: the row and column that are outside
    of it are filled in the one file and pixels in the other; the rest is the same. *)
Example C146_example : exists f1 f2,
  make_meds ex_conf ex_types ex_rows None ex_objs ex_junk (fun _ => 0%Q) = Ok f1 /\
  make_meds ex_conf ex_types ex_big_rows None ex_objs ex_junk (fun _ => 0%Q) = Ok f2 /\
  frames ex_dr ex_dc ex_rows ex_big_rows /\
  first_image_is_coadd (k_l ex_conf) && trim_to_coadd (k_l ex_conf) = false /\
  map o_ncut (m_cat f1) = [3; 1; 2] /\ map o_ncut (m_cat f2) = [3; 2; 3] /\
  map (fun o => map s_osr (firstn 1 (o_slots o))) (m_cat f1) = [[2]; [-1]; [5]] /\
  map (fun o => map s_osr (firstn 1 (o_slots o))) (m_cat f2) = [[3]; [0]; [6]] /\
  get_cutout f1 0 1 TImage = get_cutout f2 0 1 TImage /\
  get_cutout f1 1 0 TImage = Ok (mkImg 4 4
    [0; 0; 0; 0;  0; 2000; 2002; 2004;  0; 2040; 2042; 2044;  0; 2080; 2082; 2084]%Q) /\
  get_cutout f2 1 0 TImage = Ok (mkImg 4 4
    [1958; 1960; 1962; 1964;  1998; 2000; 2002; 2004;  2038; 2040; 2042; 2044;  2078; 2080; 2082; 2084]%Q).
Proof.
  do 2 eexists. split; [vm_compute; reflexivity|]. split; [vm_compute; reflexivity|].
  split; [exact ex_frames|]. repeat (split; [vm_compute; reflexivity|]). vm_compute; reflexivity.
Qed.
