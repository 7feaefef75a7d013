(** Backgrounds taken off before: C148. *)
From Coq Require Import String.
From Verif Require Import Base Img Types Reader MakerLayout MakerWrite MakerFile
  SpecFile SpecNet ExampleData ExampleNet.
From Verif Require NetLemmas NetLemmas2.
Open Scope Z_scope.

(** * C148 *)
Theorem C148_net : forall k types1 types2 rows1 rows2 psf input j1 j2 p f1 f2,
  make_meds k types1 rows1 psf input j1 p = Ok f1 -> make_meds k types2 rows2 psf input j2 p = Ok f2 ->
  nets_agree rows1 rows2 ->
  Forall (fun o => 1 <= o_box o) input -> Forall (fun r => source_ok (ir_src r)) rows1 ->
  Forall (fun r => source_ok (ir_src r)) rows2 ->
  m_cat f1 = m_cat f2 /\ (forall i c, get_psf f1 i c = get_psf f2 i c) /\
  forall i c o s row t, cutout_at f1 i c o s -> zget rows1 (s_file s) = Some row -> has_file (ir_src row) t ->
    In t (map fst (m_ext f1)) -> In t (map fst (m_ext f2)) ->
    exists im1 im2, get_cutout f1 i c t = Ok im1 /\ get_cutout f2 i c t = Ok im2 /\
      nr im1 = o_box o /\ nc im1 = o_box o /\ pixelwise (fun _ _ x y => (x == y)%Q) im1 im2.
Proof. exact NetLemmas.net_all. Qed.
Print Assumptions C148_net.

(** Both files can be made, or both runs raise the same. *)
Theorem C148_outcome : forall k types rows1 rows2 psf input j1 j2 p, nets_agree rows1 rows2 ->
  Forall (fun r => source_ok (ir_src r) /\ bkg_usable (ir_src r)) rows1 ->
  Forall (fun r => source_ok (ir_src r) /\ bkg_usable (ir_src r)) rows2 ->
  match make_meds k types rows1 psf input j1 p, make_meds k types rows2 psf input j2 p with
  | Ok _, Ok _ => True | Err e, Err e' => e = e' | _, _ => False end.
Proof. exact NetLemmas2.net_outcome. Qed.
Print Assumptions C148_outcome.

(** A sloping background in a file of its own, and the images without it. *)
Example C148_example : exists f1 f2,
  make_meds ex_conf ex_types ex_sky_rows None ex_objs ex_junk (fun _ => 0%Q) = Ok f1 /\
  make_meds ex_conf ex_types ex_rows None ex_objs ex_junk (fun _ => 0%Q) = Ok f2 /\
  nets_agree ex_sky_rows ex_rows /\ map o_ncut (m_cat f1) = [3; 1; 2] /\
  (let* a := get_cutout f1 1 0 TImage in let* b := get_cutout f2 1 0 TImage in
   Ok (map Qred (dat a), map Qred (dat b))) =
  Ok ([0; 0; 0; 0;  0; 2000; 2002; 2004;  0; 2040; 2042; 2044;  0; 2080; 2082; 2084]%Q,
      [0; 0; 0; 0;  0; 2000; 2002; 2004;  0; 2040; 2042; 2044;  0; 2080; 2082; 2084]%Q).
Proof.
  do 2 eexists. split; [vm_compute; reflexivity|]. split; [vm_compute; reflexivity|].
  split; [exact ex_nets|]. split; vm_compute; reflexivity.
Qed.

(** Types that can be written, and one that cannot (C18): both runs raise the same. *)
Example C148_outcome_example :
  nets_agree ex_sky_rows ex_rows /\
  Forall (fun r => source_ok (ir_src r) /\ bkg_usable (ir_src r)) ex_sky_rows /\
  Forall (fun r => source_ok (ir_src r) /\ bkg_usable (ir_src r)) ex_rows /\
  map (fun rows => match make_meds ex_conf ["image"; "noise"]%string rows None ex_objs ex_junk (fun _ => 0%Q) with
                   | Ok _ => None | Err e => Some e end) [ex_sky_rows; ex_rows] = [Some KeyError; Some KeyError] /\
  map (fun rows => match make_meds ex_conf ex_types rows None ex_objs ex_junk (fun _ => 0%Q) with
                   | Ok _ => None | Err e => Some e end) [ex_sky_rows; ex_rows] = [None; None].
Proof.
  split; [exact ex_nets|]. split; [exact ex_sky_usable|]. split; [exact ex_usable|]. split; vm_compute; reflexivity.
Qed.
