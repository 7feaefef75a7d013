(** C19: what a second [write] by the same maker does. *)
From Coq Require Import String QArith.
From Verif Require Import Base Img Types Reader MakerLayout MakerWrite MakerFile SpecTiles SpecLayout SpecFile ExampleData.
From Verif Require AgainLemmas3.
Open Scope Z_scope.

(** The second write succeeds exactly when no object has two cutouts or more. *)
Theorem C19_second_write_exact_partial : forall k types rows input m0 junk pjunk m1 f1 junk' pjunk',
  Forall (fun o => 1 <= o_box o) input -> Forall (fun r => source_ok (ir_src r)) rows ->
  new_maker k types rows None input = Ok m0 -> write m0 junk pjunk = Ok (m1, f1) ->
  (forall t, In t (map fst (m_ext f1)) -> fill_value t <> None) ->
  (exists m2 f2, write m1 junk' pjunk' = Ok (m2, f2)) <-> Forall (fun o => o_ncut o <= 1) (m_cat f1).
Proof. exact AgainLemmas3.second_write_exact. Qed.
Print Assumptions C19_second_write_exact_partial.

(** Otherwise it raises IndexError, with or without psfs. *)
Theorem C19_second_write_raises_partial : forall k types rows psf input m0 junk pjunk m1 f1 o junk' pjunk',
  new_maker k types rows psf input = Ok m0 -> write m0 junk pjunk = Ok (m1, f1) ->
  In o (m_cat f1) -> 2 <= o_ncut o -> write m1 junk' pjunk' = Err IndexError.
Proof. exact AgainLemmas3.second_write_fails. Qed.
Print Assumptions C19_second_write_raises_partial.

(** When it succeeds every object has each of its cutouts twice, both the same as in
    the first file. *)
Theorem C19_second_write_partial : forall k types rows input m0 junk pjunk m1 f1 junk' pjunk' m2 f2,
  Forall (fun o => 1 <= o_box o) input -> Forall (fun r => source_ok (ir_src r)) rows ->
  new_maker k types rows None input = Ok m0 -> write m0 junk pjunk = Ok (m1, f1) -> write m1 junk' pjunk' = Ok (m2, f2) ->
  zlen (m_cat f2) = zlen (m_cat f1) /\ map fst (m_ext f2) = map fst (m_ext f1) /\
  forall i o1, zget (m_cat f1) i = Some o1 -> o_ncut o1 <= 1 /\
    exists o2, zget (m_cat f2) i = Some o2 /\ o_id o2 = o_id o1 /\ o_box o2 = o_box o1 /\ o_ncut o2 = 2 * o_ncut o1 /\
      forall icut s t v row, cutout_at f2 i icut o2 s -> In t (map fst (m_ext f1)) -> fill_value t = Some v ->
        zget rows (s_file s) = Some row -> has_file (ir_src row) t ->
        (exists s1, cutout_at f1 i 0 o1 s1 /\ s_file s1 = s_file s) /\
        exists im, get_cutout f1 i 0 t = Ok im /\ get_cutout f2 i icut t = Ok im.
Proof. exact AgainLemmas3.second_write. Qed.
Print Assumptions C19_second_write_partial.

(** Three objects over one image: the second file has two cutouts of the same pixels;
    a third write raises. *)
Example C19_example :
  (let* m0 := new_maker (ex_conf_with (ex_lconf false true false false 1)) ex_types (firstn 1 ex_rows) None ex_objs in
   let* w1 := write m0 ex_junk (fun _ => 0%Q) in
   let* w2 := write (fst w1) ex_junk (fun _ => 0%Q) in
   let* a := get_cutout (snd w1) 1 0 TImage in
   let* b := get_cutout (snd w2) 1 0 TImage in
   let* c := get_cutout (snd w2) 1 1 TImage in
   Ok (map o_ncut (m_cat (snd w1)), map o_ncut (m_cat (snd w2)), forallb (fun i => Z.eqb (zlen (dat i)) 16) [a; b; c],
       forallb (fun p => Qeq_bool (fst p) (fst (snd p)) && Qeq_bool (fst p) (snd (snd p))) (combine (dat a) (combine (dat b) (dat c))),
       match write (fst w2) ex_junk (fun _ => 0%Q) with Err e => Some e | Ok _ => None end))
  = Ok ([1; 1; 1], [2; 2; 2], true, true, Some IndexError).
Proof. vm_compute. reflexivity. Qed.

(** With three images some object has two cutouts. *)
Example C19_example_raises :
  (let* m0 := new_maker ex_conf ex_types ex_rows (Some ex_psfs) ex_objs in
   let* w1 := write m0 ex_junk (fun _ => 0%Q) in
   Ok (map o_ncut (m_cat (snd w1)), match write (fst w1) ex_junk (fun _ => 0%Q) with Err e => Some e | Ok _ => None end))
  = Ok ([3; 1; 2], Some IndexError).
Proof. vm_compute. reflexivity. Qed.
