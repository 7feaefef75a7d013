(** Bits that are not declared unusable: C149. *)
From Coq Require Import String.
From Verif Require Import Base Img Types Reader MakerLayout MakerWrite MakerFile Composite Uberseg
  SpecFile SpecBits ExampleData ExampleBits.
From Verif Require BitsLemmas.
Open Scope Z_scope.

(** * C149 *)
Theorem C149_bits : forall k types rows1 rows2 psf input j p f1 f2,
  make_meds k types rows1 psf input j p = Ok f1 -> make_meds k types rows2 psf input j p = Ok f2 ->
  bits_agree (k_unusable k) rows1 rows2 ->
  Forall (fun r => source_ok (ir_src r)) rows1 -> Forall (fun r => source_ok (ir_src r)) rows2 ->
  m_cat f1 = m_cat f2 /\ (forall i c, get_psf f1 i c = get_psf f2 i c) /\
  (forall t, t <> TBmask -> ext_find (m_ext f1) t = ext_find (m_ext f2) t /\
     (forall i c, get_cutout f1 i c t = get_cutout f2 i c t) /\ (forall i, get_mosaic f1 i t = get_mosaic f2 i t)) /\
  (forall i c b, get_cweight_cutout f1 i c b = get_cweight_cutout f2 i c b) /\
  (forall fuel i c fast, get_uberseg fuel f1 i c fast = get_uberseg fuel f2 i c fast) /\
  (forall i c b, get_cseg_weight f1 i c b = get_cseg_weight f2 i c b).
Proof. exact BitsLemmas.bits_same. Qed.
Print Assumptions C149_bits.

(** Both files can be made, or both runs raise the same. *)
Theorem C149_outcome : forall k types rows1 rows2 psf input j p, bits_agree (k_unusable k) rows1 rows2 ->
  Forall (fun r => source_ok (ir_src r)) rows1 -> Forall (fun r => source_ok (ir_src r)) rows2 ->
  match make_meds k types rows1 psf input j p, make_meds k types rows2 psf input j p with
  | Ok _, Ok _ => True | Err e, Err e' => e = e' | _, _ => False end.
Proof. exact BitsLemmas.bits_outcome. Qed.
Print Assumptions C149_outcome.

(** Bits 8 and 16 of the masks switched; 4 is unusable. *)
Example C149_example : exists f1 f2,
  make_meds ex_conf ex_types ex_rows None ex_objs ex_junk (fun _ => 0%Q) = Ok f1 /\
  make_meds ex_conf ex_types ex_bits_rows None ex_objs ex_junk (fun _ => 0%Q) = Ok f2 /\
  bits_agree (k_unusable ex_conf) ex_rows ex_bits_rows /\
  Forall (fun r => source_ok (ir_src r)) ex_rows /\ Forall (fun r => source_ok (ir_src r)) ex_bits_rows /\
  map o_ncut (m_cat f1) = [3; 1; 2] /\
  (let* a := get_cutout f1 0 1 TBmask in let* b := get_cutout f2 0 1 TBmask in
   Ok (map Qred (dat a), map Qred (dat b))) =
  Ok ([2; 3; 4; 5; 22; 23; 24; 25; 42; 43; 44; 45; 62; 63; 64; 65]%Q,
      [26; 27; 28; 29; 14; 15; 0; 1; 50; 51; 52; 53; 38; 39; 88; 89]%Q) /\
  (let* a := get_cutout f1 0 1 TWeight in let* b := get_cutout f2 0 1 TWeight in
   Ok (map Qred (dat a), map Qred (dat b))) =
  Ok ([2003 # 4; 501; 0; 0; 0; 0; 2025 # 4; 1013 # 2; 2043 # 4; 511; 0; 0; 0; 0; 2065 # 4; 1033 # 2]%Q,
      [2003 # 4; 501; 0; 0; 0; 0; 2025 # 4; 1013 # 2; 2043 # 4; 511; 0; 0; 0; 0; 2065 # 4; 1033 # 2]%Q).
Proof.
  do 2 eexists. split; [vm_compute; reflexivity|]. split; [vm_compute; reflexivity|].
  split; [exact ex_bits|]. split; [exact (proj1 ex_bits_ok)|]. split; [exact (proj2 ex_bits_ok)|].
  split; [vm_compute; reflexivity|]. split; vm_compute; reflexivity.
Qed.
