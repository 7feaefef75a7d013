(** Each cutout type has its own files: C150. *)
From Coq Require Import String.
From Verif Require Import Base Img Types Reader MakerLayout MakerWrite MakerFile Composite Uberseg
  SpecFile SpecOwn ExampleData ExampleOwn.
From Verif Require OwnLemmas OwnLemmas2.
Open Scope Z_scope.

(** * C150 *)
Theorem C150_own : forall k types1 types2 rows1 rows2 psf input j1 j2 p f1 f2,
  make_meds k types1 rows1 psf input j1 p = Ok f1 -> make_meds k types2 rows2 psf input j2 p = Ok f2 ->
  same_sky rows1 rows2 ->
  Forall (fun o => 1 <= o_box o) input -> Forall (fun r => source_ok (ir_src r)) rows1 ->
  Forall (fun r => source_ok (ir_src r)) rows2 ->
  m_cat f1 = m_cat f2 /\ (forall i c, get_psf f1 i c = get_psf f2 i c) /\
  forall i c o s row1 row2 t, cutout_at f1 i c o s ->
    zget rows1 (s_file s) = Some row1 -> zget rows2 (s_file s) = Some row2 ->
    own_files (k_unusable k) t (ir_src row1) (ir_src row2) -> has_file (ir_src row1) t ->
    In t (map fst (m_ext f1)) -> In t (map fst (m_ext f2)) ->
    exists im, get_cutout f1 i c t = Ok im /\ get_cutout f2 i c t = Ok im /\ nr im = o_box o /\ nc im = o_box o.
Proof. exact OwnLemmas.own_all. Qed.
Print Assumptions C150_own.

(** Whole extensions, with the cutouts of images that have no file for the type. *)
Theorem C150_extension : forall k types rows1 rows2 psf input j1 j2 p f1 f2 t,
  make_meds k types rows1 psf input j1 p = Ok f1 -> make_meds k types rows2 psf input j2 p = Ok f2 ->
  same_sky rows1 rows2 -> all_own (k_unusable k) t rows1 rows2 -> (forall q, j1 t q = j2 t q) ->
  ext_find (m_ext f1) t = ext_find (m_ext f2) t /\
  (forall i c, get_cutout f1 i c t = get_cutout f2 i c t) /\ (forall i, get_mosaic f1 i t = get_mosaic f2 i t).
Proof. exact OwnLemmas2.own_extension. Qed.
Print Assumptions C150_extension.

(** Masked weights: the weights of the image and the seg map of the coadd. *)
Theorem C150_masked : forall k types1 types2 rows1 rows2 psf input j1 j2 p f1 f2,
  make_meds k types1 rows1 psf input j1 p = Ok f1 -> make_meds k types2 rows2 psf input j2 p = Ok f2 ->
  same_sky rows1 rows2 ->
  Forall (fun o => 1 <= o_box o) input -> Forall (fun r => source_ok (ir_src r)) rows1 ->
  Forall (fun r => source_ok (ir_src r)) rows2 ->
  (forall t, t = TWeight \/ t = TSeg -> In t (map fst (m_ext f1)) /\ In t (map fst (m_ext f2))) ->
  forall i c o s s0 r1 r2 g1 g2, cutout_at f1 i c o s -> cutout_at f1 i 0 o s0 ->
  zget rows1 (s_file s) = Some r1 -> zget rows2 (s_file s) = Some r2 ->
  zget rows1 (s_file s0) = Some g1 -> zget rows2 (s_file s0) = Some g2 ->
  own_files (k_unusable k) TWeight (ir_src r1) (ir_src r2) -> has_file (ir_src r1) TWeight ->
  own_files (k_unusable k) TSeg (ir_src g1) (ir_src g2) -> has_file (ir_src g1) TSeg ->
  (forall b, get_cweight_cutout f1 i c b = get_cweight_cutout f2 i c b) /\
  interpolate_coadd_seg f1 i c = interpolate_coadd_seg f2 i c /\
  (forall fuel fast, get_uberseg fuel f1 i c fast = get_uberseg fuel f2 i c fast).
Proof. exact OwnLemmas2.own_masked. Qed.
Print Assumptions C150_masked.

(** Other images, backgrounds and seg maps, the same weights and masks; other types and reserved space. *)
Example C150_example : exists f1 f2,
  make_meds ex_conf ex_types ex_rows None ex_objs ex_junk (fun _ => 0%Q) = Ok f1 /\
  make_meds ex_conf ["image"; "weight"]%string ex_own_rows None ex_objs (fun _ _ => 3%Q) (fun _ => 0%Q) = Ok f2 /\
  same_sky ex_rows ex_own_rows /\
  Forall2 (fun r1 r2 => own_files (k_unusable ex_conf) TWeight (ir_src r1) (ir_src r2)) ex_rows ex_own_rows /\
  Forall (fun r => source_ok (ir_src r)) ex_rows /\ Forall (fun r => source_ok (ir_src r)) ex_own_rows /\
  map o_ncut (m_cat f2) = [3; 1; 2] /\
  (let* a := get_cutout f1 1 0 TImage in let* b := get_cutout f2 1 0 TImage in
   Ok (option_map Qred (px a 1 1), option_map Qred (px b 1 1))) = Ok (Some 2000%Q, Some 1997998%Q) /\
  (let* a := get_cutout f1 0 1 TWeight in let* b := get_cutout f2 0 1 TWeight in
   Ok (map Qred (dat a), map Qred (dat b))) =
  Ok ([2003 # 4; 501; 0; 0; 0; 0; 2025 # 4; 1013 # 2; 2043 # 4; 511; 0; 0; 0; 0; 2065 # 4; 1033 # 2]%Q,
      [2003 # 4; 501; 0; 0; 0; 0; 2025 # 4; 1013 # 2; 2043 # 4; 511; 0; 0; 0; 0; 2065 # 4; 1033 # 2]%Q).
Proof.
  do 2 eexists. split; [vm_compute; reflexivity|]. split; [vm_compute; reflexivity|].
  split; [exact (proj1 ex_own)|]. split; [exact (proj2 ex_own)|]. split; [exact (proj1 ex_own_ok)|]. split; [exact (proj2 ex_own_ok)|].
  split; [vm_compute; reflexivity|]. split; vm_compute; reflexivity.
Qed.

(** Seg cutouts of the first object; the third image has no seg map, and the third cutout
    is what was in the reserved space. *)
Example C150_extension_example : exists f1 f2,
  make_meds ex_conf ex_types ex_rows None ex_objs ex_junk (fun _ => 0%Q) = Ok f1 /\
  make_meds ex_conf ex_types ex_seg_only_rows None ex_objs ex_junk (fun _ => 0%Q) = Ok f2 /\
  same_sky ex_rows ex_seg_only_rows /\ all_own (k_unusable ex_conf) TSeg ex_rows ex_seg_only_rows /\
  map (fun f => let* a := get_mosaic f 0 TSeg in Ok (map Qred (firstn 20 (skipn 28 (dat a))))) [f1; f2] =
  [Ok (map inject_Z ([67; 68; 69; 70] ++ map (fun q => - 77 - q) [32; 33; 34; 35; 36; 37; 38; 39; 40; 41; 42; 43; 44; 45; 46; 47]));
   Ok (map inject_Z ([67; 68; 69; 70] ++ map (fun q => - 77 - q) [32; 33; 34; 35; 36; 37; 38; 39; 40; 41; 42; 43; 44; 45; 46; 47]))].
Proof.
  do 2 eexists. split; [vm_compute; reflexivity|]. split; [vm_compute; reflexivity|].
  split; [exact (proj1 ex_seg_only)|]. split; [exact (proj2 ex_seg_only _)|]. vm_compute. reflexivity.
Qed.

(** An object with a neighbour; the other images lose their seg maps. *)
Example C150_masked_example : exists f1 f2,
  make_meds ex_conf ex_types ex_seg_rows None ex_own_objs ex_junk (fun _ => 0%Q) = Ok f1 /\
  make_meds ex_conf ex_types ex_own_segs None ex_own_objs ex_junk (fun _ => 0%Q) = Ok f2 /\
  same_sky ex_seg_rows ex_own_segs /\
  Forall2 (fun r1 r2 => own_files (k_unusable ex_conf) TWeight (ir_src r1) (ir_src r2)) ex_seg_rows ex_own_segs /\
  Forall2 (fun r1 r2 => own_files (k_unusable ex_conf) TSeg (ir_src r1) (ir_src r2)) (firstn 1 ex_seg_rows) (firstn 1 ex_own_segs) /\
  Forall (fun r => source_ok (ir_src r)) ex_seg_rows /\ Forall (fun r => source_ok (ir_src r)) ex_own_segs /\
  map (fun o => map s_file (o_slots o)) (firstn 1 (m_cat f1)) = [[0; 1; 2]] /\
  map (fun f => let* a := get_uberseg 30 f 0 0 true in Ok (map Qred (dat a))) [f1; f2] =
  [Ok [261; 0; 0; 0; 0; 1065#4; 533#2; 1067#4; 271; 0; 0; 0; 0; 1105#4; 553#2; 0]%Q;
   Ok [261; 0; 0; 0; 0; 1065#4; 533#2; 1067#4; 271; 0; 0; 0; 0; 1105#4; 553#2; 0]%Q] /\
  map (fun f => let* a := get_cweight_cutout f 0 1 false in Ok (map Qred (dat a))) [f1; f2] =
  [Ok [2003#4; 501; 0; 0; 0; 0; 2025#4; 1013#2; 2043#4; 511; 0; 0; 0; 0; 2065#4; 1033#2]%Q;
   Ok [2003#4; 501; 0; 0; 0; 0; 2025#4; 1013#2; 2043#4; 511; 0; 0; 0; 0; 2065#4; 1033#2]%Q].
Proof.
  do 2 eexists. split; [vm_compute; reflexivity|]. split; [vm_compute; reflexivity|].
  split; [apply ex_own_segs_ok|]. split; [apply ex_own_segs_ok|]. split; [apply ex_own_segs_ok|].
  split; [apply ex_own_segs_ok|]. split; [apply ex_own_segs_ok|]. split; [vm_compute; reflexivity|]. split; vm_compute; reflexivity.
Qed.
