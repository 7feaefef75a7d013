(** Property theorems on the numbers given to the objects: C84. *)
From Verif Require Import Base Img Types Reader MakerLayout MakerWrite MakerFile Composite Fast3tree Uberseg
  SpecRelabel ExampleData ExampleRelabel.
From Verif Require RelabelLemmas.
Open Scope Z_scope.

(** * C84: numbers are only names *)
Theorem C84_weights_renamed : forall phi f f' iobj k, renaming phi -> renamed_file phi f f' ->
  (forall rs, get_cweight_cutout f' iobj k rs = get_cweight_cutout f iobj k rs) /\
  (forall rs, get_cweight_mosaic f' iobj rs = get_cweight_mosaic f iobj rs) /\
  (forall rs, get_cweight_cutout_list f' iobj rs = get_cweight_cutout_list f iobj rs) /\
  (forall uc, get_cseg_weight f' iobj k uc = get_cseg_weight f iobj k uc) /\
  (forall fuel fast, get_uberseg fuel f' iobj k fast = get_uberseg fuel f iobj k fast) /\
  (forall fuel fast, get_uberseg_list fuel f' iobj fast = get_uberseg_list fuel f iobj fast).
Proof. exact RelabelLemmas.weights_renamed. Qed.
Print Assumptions C84_weights_renamed.

Theorem C84_segs_renamed : forall phi f f' iobj k, renaming phi -> renamed_file phi f f' -> m_number_col f = true ->
  both (renamed_img phi) (get_cutout f iobj k TSeg) (get_cutout f' iobj k TSeg) /\
  both (renamed_img phi) (interpolate_coadd_seg f iobj k) (interpolate_coadd_seg f' iobj k) /\
  both (renamed_img phi) (get_cseg_cutout f iobj k) (get_cseg_cutout f' iobj k) /\
  both (renamed_img phi) (get_cseg_mosaic f iobj) (get_cseg_mosaic f' iobj).
Proof. exact RelabelLemmas.segs_renamed. Qed.
Print Assumptions C84_segs_renamed.

Example C84_example : exists f wt seg, ex_seg_make_of ex_two_objects = Ok f /\
  renaming ex_phi /\ renamed_file ex_phi f (ex_rename ex_phi f) /\ m_number_col f = true /\
  get_uberseg 9 (ex_rename ex_phi f) 0 0 true = Ok wt /\ px wt 1 1 = Some (1065#4) /\ px wt 1 3 = Some 0%Q /\
  get_cseg_cutout (ex_rename ex_phi f) 0 0 = Ok seg /\ px seg 1 1 = Some (inject_Z 3).
Proof.
  do 3 eexists. split; [vm_compute; reflexivity|]. split; [exact ex_phi_ok|].
  split; [apply ex_rename_ok; vm_compute; reflexivity|]. split; [reflexivity|].
  split; [vm_compute; reflexivity|]. repeat (split; [vm_compute; reflexivity|]). vm_compute; reflexivity.
Qed.

(* giving both objects the same number changes the weights *)
Example C84_merged : exists f wt wt', ex_seg_make_of ex_two_objects = Ok f /\
  get_uberseg 9 f 0 0 false = Ok wt /\ get_uberseg 9 (ex_rename (fun z => Z.min z 1) f) 0 0 false = Ok wt' /\
  px wt 3 1 = Some 0%Q /\ px wt' 3 1 = Some (1105#4).
Proof.
  do 3 eexists. split; [vm_compute; reflexivity|]. split; [vm_compute; reflexivity|].
  split; [vm_compute; reflexivity|]. split; vm_compute; reflexivity.
Qed.
