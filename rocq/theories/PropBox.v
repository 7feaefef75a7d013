(** Property theorems on box sizes that were never set: C120. *)
From Verif Require Import Base Img Types MakerLayout MakerWrite MakerFile SpecTiles SpecLayout SpecFile ExampleData.
From Verif Require BoxLemmas.
Open Scope Z_scope.

(** * C120 *)

(** In a file that was written every object with a cutout has a box of at least 0 pixels. *)
Theorem C120_boxes : forall k types rows psf input junk pjunk f, make_meds k types rows psf input junk pjunk = Ok f ->
  forall i icut o s, cutout_at f i icut o s -> 0 <= o_box o.
Proof. exact BoxLemmas.written_box. Qed.
Print Assumptions C120_boxes.

(** So an input box below -1 of an object on any image makes the call raise. *)
Theorem C120_input : forall k types rows psf input junk pjunk f objs, make_meds k types rows psf input junk pjunk = Ok f ->
  selected (k_l k) (map ir_image rows) input objs ->
  forall i o fid im, zget objs i = Some o -> zget (map ir_image rows) fid = Some im -> accepted (k_l k) fid im o -> -1 <= o_box o.
Proof. exact BoxLemmas.written_input_box. Qed.
Print Assumptions C120_input.

Theorem C120_unset : forall k types rows psf input junk pjunk objs, selected (k_l k) (map ir_image rows) input objs ->
  forall o fid im, In o objs -> o_box o = DEFVAL -> zget (map ir_image rows) fid = Some im -> accepted (k_l k) fid im o ->
  exists e, make_meds k types rows psf input junk pjunk = Err e.
Proof. exact BoxLemmas.unset_refused. Qed.
Print Assumptions C120_unset.

(** The three objects of the other examples, one of them with a box of -3; and with
    its box size never set. *)
Example C120_example :
  make_meds ex_conf ex_types ex_rows None [ex_obj 11 1 3 (11#2) (9#2); ex_obj 12 2 4 (3#2) (5#4); ex_obj 13 3 (-3) 4 (13#2)]
    ex_junk (fun i => 0%Q) = Err ValueError /\
  (let* f := make_meds ex_conf ex_types ex_rows None ex_objs ex_junk (fun i => 0%Q) in Ok (map o_box (m_cat f))) = Ok [4; 4; 2].
Proof. split; vm_compute; reflexivity. Qed.
Example C120_unset_example : exists im, zget (map ir_image ex_rows) 0 = Some im /\
  selected (k_l ex_conf) (map ir_image ex_rows) [ex_obj 13 3 DEFVAL 4 (13#2)] [ex_obj 13 3 DEFVAL 4 (13#2)] /\
  accepted (k_l ex_conf) 0 im (ex_obj 13 3 DEFVAL 4 (13#2)).
Proof. eexists. split; [reflexivity|]. split; [reflexivity|]. repeat split; vm_compute; try reflexivity; intros H; discriminate H. Qed.
