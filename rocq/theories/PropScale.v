(** Other zero points: C147. *)
From Coq Require Import String.
From Verif Require Import Base Img Types Reader MakerLayout MakerWrite MakerFile Composite Uberseg
  SpecFile SpecScale ExampleData ExampleScale.
From Verif Require ScaleLemmas ScaleLemmas2 ScaleLemmas3.
Open Scope Z_scope.

(** * C147 *)
Theorem C147_scaled : forall k types1 types2 rows1 rows2 a psf input j1 j2 p f1 f2,
  make_meds k types1 rows1 psf input j1 p = Ok f1 -> make_meds k types2 rows2 psf input j2 p = Ok f2 ->
  rescaled a rows1 rows2 ->
  Forall (fun o => 1 <= o_box o) input -> Forall (fun r => source_ok (ir_src r)) rows1 ->
  m_cat f1 = m_cat f2 /\ (forall i c, get_psf f1 i c = get_psf f2 i c) /\
  forall i c o s row t, cutout_at f1 i c o s -> zget rows1 (s_file s) = Some row -> has_file (ir_src row) t ->
    In t (map fst (m_ext f1)) -> In t (map fst (m_ext f2)) ->
    exists im1 im2, get_cutout f1 i c t = Ok im1 /\ get_cutout f2 i c t = Ok im2 /\
      nr im1 = o_box o /\ nc im1 = o_box o /\
      pixelwise (fun _ _ x y => scales_as t (a (s_file s)) x y) im1 im2.
Proof. exact ScaleLemmas.scale_all. Qed.
Print Assumptions C147_scaled.

(** The squared significance of a pixel is the same in both files. *)
Theorem C147_significance : forall k types1 types2 rows1 rows2 a psf input j1 j2 p f1 f2,
  make_meds k types1 rows1 psf input j1 p = Ok f1 -> make_meds k types2 rows2 psf input j2 p = Ok f2 ->
  rescaled a rows1 rows2 ->
  Forall (fun o => 1 <= o_box o) input -> Forall (fun r => source_ok (ir_src r)) rows1 ->
  forall i c o s row im1 wt1 im2 wt2 r q x1 w1 x2 w2,
  cutout_at f1 i c o s -> zget rows1 (s_file s) = Some row -> has_file (ir_src row) TImage -> has_file (ir_src row) TWeight ->
  get_cutout f1 i c TImage = Ok im1 -> get_cutout f1 i c TWeight = Ok wt1 ->
  get_cutout f2 i c TImage = Ok im2 -> get_cutout f2 i c TWeight = Ok wt2 ->
  In TImage (map fst (m_ext f1)) -> In TImage (map fst (m_ext f2)) ->
  In TWeight (map fst (m_ext f1)) -> In TWeight (map fst (m_ext f2)) ->
  px im1 r q = Some x1 -> px wt1 r q = Some w1 -> px im2 r q = Some x2 -> px wt2 r q = Some w2 ->
  (x1 * x1 * w1 == x2 * x2 * w2)%Q.
Proof. exact ScaleLemmas.scale_significance. Qed.
Print Assumptions C147_significance.

(** Both files can be made, or both runs raise the same. *)
Theorem C147_outcome : forall k types rows1 rows2 a psf input j1 j2 p, rescaled a rows1 rows2 ->
  match make_meds k types rows1 psf input j1 p, make_meds k types rows2 psf input j2 p with
  | Ok _, Ok _ => True | Err e, Err e' => e = e' | _, _ => False end.
Proof. exact ScaleLemmas2.scale_outcome. Qed.
Print Assumptions C147_outcome.

(** The weights with the neighbours masked. *)
Theorem C147_masked : forall k types1 types2 rows1 rows2 a psf input j1 j2 p f1 f2,
  make_meds k types1 rows1 psf input j1 p = Ok f1 -> make_meds k types2 rows2 psf input j2 p = Ok f2 ->
  rescaled a rows1 rows2 ->
  Forall (fun o => 1 <= o_box o) input -> Forall (fun r => source_ok (ir_src r)) rows1 ->
  (forall t, t = TWeight \/ t = TSeg -> In t (map fst (m_ext f1)) /\ In t (map fst (m_ext f2))) ->
  forall i c o s s0 row row0, cutout_at f1 i c o s -> cutout_at f1 i 0 o s0 ->
  zget rows1 (s_file s) = Some row -> zget rows1 (s_file s0) = Some row0 ->
  has_file (ir_src row) TWeight -> has_file (ir_src row0) TSeg ->
  (forall b, weights_follow (a (s_file s)) (get_cweight_cutout f1 i c b) (get_cweight_cutout f2 i c b)) /\
  (forall fuel fast, weights_follow (a (s_file s)) (get_uberseg fuel f1 i c fast) (get_uberseg fuel f2 i c fast)) /\
  (has_file (ir_src row) TSeg ->
    (forall b, weights_follow (a (s_file s)) (get_cseg_weight f1 i c b) (get_cseg_weight f2 i c b)) /\
    get_cseg_cutout f1 i c = get_cseg_cutout f2 i c).
Proof. exact ScaleLemmas3.scale_masked. Qed.
Print Assumptions C147_masked.

(** Scales 6, 1 and 2 instead of 2; the first object is in all three images. *)
Example C147_example : exists f1 f2,
  make_meds ex_conf ex_types ex_rows None ex_objs ex_junk (fun _ => 0%Q) = Ok f1 /\
  make_meds ex_conf ex_types ex_scaled_rows None ex_objs ex_junk (fun _ => 0%Q) = Ok f2 /\
  rescaled ex_a ex_rows ex_scaled_rows /\ map o_ncut (m_cat f1) = [3; 1; 2] /\
  map (fun o => map s_file (o_slots o)) (firstn 1 (m_cat f1)) = [[0; 1; 2]] /\
  (let* a := get_cutout f1 0 0 TImage in let* b := get_cutout f2 0 0 TImage in
   Ok (option_map Qred (px a 1 1), option_map Qred (px b 1 1))) = Ok (Some 2128%Q, Some 6384%Q) /\
  (let* a := get_cutout f1 0 1 TWeight in let* b := get_cutout f2 0 1 TWeight in
   Ok (map Qred (dat a), map Qred (dat b))) =
  Ok ([2003 # 4; 501; 0; 0; 0; 0; 2025 # 4; 1013 # 2; 2043 # 4; 511; 0; 0; 0; 0; 2065 # 4; 1033 # 2]%Q,
      [2003; 2004; 0; 0; 0; 0; 2025; 2026; 2043; 2044; 0; 0; 0; 0; 2065; 2066]%Q).
Proof.
  do 2 eexists. split; [vm_compute; reflexivity|]. split; [vm_compute; reflexivity|].
  split; [exact ex_rescaled|]. split; [vm_compute; reflexivity|]. split; [vm_compute; reflexivity|].
  split; vm_compute; reflexivity.
Qed.

(** An object with a neighbour, in the coadd and in an image rotated by 90 degrees. *)
Example C147_masked_example : exists f1 f2,
  make_meds ex_conf ex_types ex_seg_rows None ex_seg_objs ex_junk (fun _ => 0%Q) = Ok f1 /\
  make_meds ex_conf ex_types ex_scaled_segs None ex_seg_objs ex_junk (fun _ => 0%Q) = Ok f2 /\
  rescaled ex_a ex_seg_rows ex_scaled_segs /\
  map fst (m_ext f1) = [TImage; TWeight; TSeg; TBmask] /\ map fst (m_ext f2) = [TImage; TWeight; TSeg; TBmask] /\
  map (fun o => map s_file (o_slots o)) (firstn 1 (m_cat f1)) = [[0; 1; 2]] /\
  (let* a := get_uberseg 30 f1 0 0 true in let* b := get_uberseg 30 f2 0 0 true in
   Ok (map Qred (dat a), map Qred (dat b))) = Ok ([261; 0; 0; 0; 0; 1065#4; 533#2; 1067#4; 271; 0; 0; 0; 0; 1105#4; 553#2; 0]%Q,
       [29; 0; 0; 0; 0; 355#12; 533#18; 1067#36; 271#9; 0; 0; 0; 0; 1105#36; 553#18; 0]%Q) /\
  (let* a := get_cweight_cutout f1 0 1 false in let* b := get_cweight_cutout f2 0 1 false in
   Ok (map Qred (dat a), map Qred (dat b))) = Ok ([2003#4; 501; 0; 0; 0; 0; 2025#4; 1013#2; 2043#4; 511; 0; 0; 0; 0; 2065#4; 1033#2]%Q,
       [2003; 2004; 0; 0; 0; 0; 2025; 2026; 2043; 2044; 0; 0; 0; 0; 2065; 2066]%Q).
Proof.
  do 2 eexists. split; [vm_compute; reflexivity|]. split; [vm_compute; reflexivity|]. split; [exact ex_segs_rescaled|].
  split; [vm_compute; reflexivity|]. split; [vm_compute; reflexivity|]. split; [vm_compute; reflexivity|].
  split; vm_compute; reflexivity.
Qed.
