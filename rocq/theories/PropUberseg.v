(** Property theorems on the uberseg weight maps: C29 to C34. *)
From Coq Require Import String Permutation.
From Verif Require Import Base Img Types Reader MakerLayout MakerWrite MakerFile Composite Fast3tree Uberseg
  SpecTiles SpecLayout SpecFile SpecComposite SpecUberseg ExampleData ExampleUberseg.
From Verif Require BaseLemmas MakerLemmas UbersegLemmas UbersegLemmas2 UbersegLemmas3 FtLemmas UbersegLemmas4.
Open Scope Z_scope.

(** * C29: the Python implementation *)
Theorem C29_python_uberseg : forall f iobj k o s wt seg, file_wf f -> m_number_col f = true -> cutout_at f iobj k o s ->
  get_cweight_cutout f iobj k false = Ok wt -> interpolate_coadd_seg f iobj k = Ok seg ->
  forall fuel r0 c0 v0, ~ two_values seg -> nonsky seg r0 c0 v0 ->
  exists res, get_uberseg fuel f iobj k false = Ok res /\
    pixelwise (fun r c x y => exists r' c' v, first_nearest seg r c r' c' v /\ kept_if (o_number o) v x y) wt res.
Proof. exact UbersegLemmas3.get_slow. Qed.
Print Assumptions C29_python_uberseg.

(** With the C code or without it, whatever the seg map and the numbers: only taken away. *)
Theorem C29_only_removes : forall fuel f iobj k fast wt res,
  get_cweight_cutout f iobj k false = Ok wt -> get_uberseg fuel f iobj k fast = Ok res ->
  forall r c y, px res r c = Some y -> exists x, px wt r c = Some x /\ (y = x \/ y = 0%Q).
Proof. exact UbersegLemmas4.uberseg_takes. Qed.
Print Assumptions C29_only_removes.

Example C29_removes_example : exists f wt res, ex_seg_make_of ex_two_objects = Ok f /\
  get_cweight_cutout f 0 0 false = Ok wt /\ get_uberseg 30 f 0 0 true = Ok res /\
  px wt 1 1 = Some (1065#4) /\ px res 1 1 = Some (1065#4) /\ px wt 3 1 = Some (1105#4) /\ px res 3 1 = Some 0%Q.
Proof. do 3 eexists. repeat (split; [vm_compute; reflexivity|]). vm_compute; reflexivity. Qed.

Example C29_example : exists f o s wt seg res, ex_seg_make_of ex_two_objects = Ok f /\ m_number_col f = true /\
  cutout_at f 0 0 o s /\ get_cweight_cutout f 0 0 false = Ok wt /\ interpolate_coadd_seg f 0 0 = Ok seg /\
  quniq (dat seg) = [1%Q; 0%Q; 2%Q] /\ nonsky seg 0 0 1 /\
  get_uberseg 0 f 0 0 false = Ok res /\ px seg 1 1 = Some 0%Q /\ px res 1 1 = px wt 1 1 /\ px wt 1 1 = Some (1065#4) /\
  px seg 3 1 = Some 0%Q /\ px res 3 1 = Some 0%Q /\ px wt 3 1 = Some (1105#4).
Proof.
  do 6 eexists. split; [vm_compute; reflexivity|]. split; [reflexivity|]. split.
  { split; [vm_compute; reflexivity|]. split; [split; [discriminate|reflexivity]|vm_compute; reflexivity]. }
  split; [vm_compute; reflexivity|]. split; [vm_compute; reflexivity|]. split; [vm_compute; reflexivity|].
  split; [split; [vm_compute; reflexivity|discriminate]|].
  split; [vm_compute; reflexivity|]. repeat (split; [vm_compute; reflexivity|]). vm_compute; reflexivity.
Qed.

(** * C30: the direct C implementation; the seg map reaches it as C ints *)
Theorem C30_direct_equals_python : forall seg weight num r0 c0 v0,
  img_ok seg -> img_ok weight -> same_shape seg weight -> integral seg ->
  num <> 0 -> nonsky seg r0 c0 v0 ->
  uberseg_direct (imap qtrunc seg) weight num (obj_inds seg) = uberseg_slow seg weight num (obj_inds seg).
Proof. exact UbersegLemmas.direct_eq_slow. Qed.
Print Assumptions C30_direct_equals_python.

Example C30_example :
  let seg := tab2 2 3 (fun r c => inject_Z (r * c)) in let weight := tab2 2 3 (fun r c => inject_Z (1 + 10 * r + c)) in
  nonsky seg 1 1 1 /\ same_shape seg weight /\
  uberseg_direct (imap qtrunc seg) weight 1 (obj_inds seg)
    = Ok (mkImg 2 3 [inject_Z 1; inject_Z 2; 0%Q; inject_Z 11; inject_Z 12; 0%Q]).
Proof.
  split; [split; [reflexivity|discriminate]|]. split; [split; reflexivity|]. vm_compute. reflexivity.
Qed.

(* number 0 is the sky: the implementations differ *)
Example C30_number_zero :
  let seg := tab2 1 2 (fun r c => inject_Z c) in let weight := tab2 1 2 (fun _ _ => 1%Q) in
  uberseg_direct (imap qtrunc seg) weight 0 (obj_inds seg) = Ok (mkImg 1 2 [1%Q; 0%Q]) /\
  uberseg_slow seg weight 0 (obj_inds seg) = Ok (mkImg 1 2 [0%Q; 0%Q]).
Proof. split; vm_compute; reflexivity. Qed.

(** * C31: the tree implementation *)
Theorem C31_tree_uberseg : forall f iobj k o s wt seg, file_wf f -> m_number_col f = true -> cutout_at f iobj k o s ->
  get_cweight_cutout f iobj k false = Ok wt -> interpolate_coadd_seg f iobj k = Ok seg ->
  forall r0 c0 v0, ~ two_values seg -> nonsky seg r0 c0 v0 -> integral seg -> nonnegative seg -> o_number o <> 0 ->
  exists N res, (forall fuel, (N <= fuel)%nat -> get_uberseg fuel f iobj k true = Ok res) /\
    pixelwise (fun r c x y => exists r' c' v, nearest seg r c r' c' v /\ kept_if (o_number o) v x y) wt res.
Proof. exact UbersegLemmas3.get_fast. Qed.
Print Assumptions C31_tree_uberseg.

Theorem C31_tree_equals_python_without_ties : forall f iobj k o s wt seg,
  file_wf f -> m_number_col f = true -> cutout_at f iobj k o s ->
  get_cweight_cutout f iobj k false = Ok wt -> interpolate_coadd_seg f iobj k = Ok seg ->
  forall r0 c0 v0, ~ two_values seg -> nonsky seg r0 c0 v0 -> integral seg -> nonnegative seg -> o_number o <> 0 ->
  exists N rf rs, (forall fuel, (N <= fuel)%nat -> get_uberseg fuel f iobj k true = Ok rf) /\
    (forall fuel, get_uberseg fuel f iobj k false = Ok rs) /\ nr rf = nr rs /\ nc rf = nc rs /\
    forall r c, (forall r1 c1 v1 r2 c2 v2, nearest seg r c r1 c1 v1 -> nearest seg r c r2 c2 v2 -> (v1 == v2)%Q) ->
      px rf r c = px rs r c.
Proof. exact UbersegLemmas3.get_fast_slow. Qed.
Print Assumptions C31_tree_equals_python_without_ties.

Theorem C31_any_arrays : forall seg weight num, img_ok seg -> img_ok weight -> same_shape seg weight ->
  integral seg -> nonnegative seg -> num <> 0 ->
  (forall r c v, px seg r c = Some v -> ~ (v == 0)%Q) \/
  (exists r1 c1 v1 r2 c2 v2, nonsky seg r1 c1 v1 /\ nonsky seg r2 c2 v2 /\ (r1, c1) <> (r2, c2)) ->
  exists N res, (forall fuel, (N <= fuel)%nat -> uberseg_tree fuel (imap qtrunc seg) weight num (obj_inds seg) = Ok res) /\
    pixelwise (fun r c x y => exists r' c' v, nearest seg r c r' c' v /\ kept_if num v x y) weight res.
Proof. exact UbersegLemmas2.tree_ok. Qed.
Print Assumptions C31_any_arrays.

Example C31_hypotheses_example : exists f o s wt seg, ex_seg_make_of ex_two_objects = Ok f /\ file_wf f /\ m_number_col f = true /\
  cutout_at f 0 0 o s /\ get_cweight_cutout f 0 0 false = Ok wt /\ interpolate_coadd_seg f 0 0 = Ok seg /\
  ~ two_values seg /\ nonsky seg 0 0 1 /\ nonsky seg 3 3 2 /\ integral seg /\ nonnegative seg /\ o_number o <> 0 /\
  img_ok seg /\ img_ok wt /\ same_shape seg wt.
Proof.
  do 5 eexists. split; [vm_compute; reflexivity|]. split; [apply (ex_seg_wf ex_two_objects); vm_compute; reflexivity|]. split; [reflexivity|].
  split; [split; [vm_compute; reflexivity|]; split; [split; [discriminate|reflexivity]|vm_compute; reflexivity]|].
  split; [vm_compute; reflexivity|]. split; [vm_compute; reflexivity|].
  split; [intros (a & b & _ & _ & _ & H)|].
  { pose proof (H 0 0 _ eq_refl) as H1. pose proof (H 1 1 _ eq_refl) as H2. pose proof (H 3 3 _ eq_refl) as H3. cbn in H1, H2, H3.
    destruct H1 as [H1|H1], H2 as [H2|H2], H3 as [H3|H3];
      match goal with A : (?x == ?a)%Q, B : (?y == ?a)%Q |- _ => pose proof (Qeq_trans _ _ _ A (Qeq_sym _ _ B)); discriminate end. }
  split; [split; [reflexivity|discriminate]|]. split; [split; [reflexivity|discriminate]|].
  split; [apply ex_two_ok; vm_compute; reflexivity|]. split; [apply ex_two_ok; vm_compute; reflexivity|]. split; [discriminate|].
  split; [unfold img_ok; vm_compute; repeat split; discriminate|]. split; [unfold img_ok; vm_compute; repeat split; discriminate|].
  split; reflexivity.
Qed.

Example C31_example : exists f o s wt seg res, ex_seg_make_of ex_two_objects = Ok f /\ m_number_col f = true /\
  cutout_at f 0 0 o s /\ get_cweight_cutout f 0 0 false = Ok wt /\ interpolate_coadd_seg f 0 0 = Ok seg /\
  quniq (dat seg) = [1%Q; 0%Q; 2%Q] /\ nonsky seg 0 0 1 /\ o_number o = 1 /\
  get_uberseg 30 f 0 0 true = Ok res /\ px res 1 1 = px wt 1 1 /\ px wt 1 1 = Some (1065#4) /\
  px res 3 1 = Some 0%Q /\ px wt 3 1 = Some (1105#4).
Proof.
  do 6 eexists. split; [vm_compute; reflexivity|]. split; [reflexivity|]. split.
  { split; [vm_compute; reflexivity|]. split; [split; [discriminate|reflexivity]|vm_compute; reflexivity]. }
  split; [vm_compute; reflexivity|]. split; [vm_compute; reflexivity|]. split; [vm_compute; reflexivity|].
  split; [split; [vm_compute; reflexivity|discriminate]|].
  split; [vm_compute; reflexivity|]. repeat (split; [vm_compute; reflexivity|]). vm_compute; reflexivity.
Qed.

(** * C32: the tree *)
Theorem C32_build : forall p, exists t, fast3tree_build p = Ok t /\ Permutation (tpts t) p /\ (p <> [] -> tree_wf t).
Proof. exact FtLemmas.build_ok. Qed.
Print Assumptions C32_build.

Theorem C32_find_sphere : forall t c r2, tree_wf t -> sphere_exact (tpts t) (find_sphere t c r2) c r2.
Proof. exact FtLemmas.find_sphere_exact. Qed.
Print Assumptions C32_find_sphere.

Example C32_example :
  let pts := map (fun k => mkPt k k (inject_Z (k mod 7)) (inject_Z (k / 7))) (zrange 60) in
  exists t, fast3tree_build pts = Ok t /\ (exists b d l r, t = TNode b d l r) /\
    map p_seg (find_sphere t (inject_Z 3, inject_Z 4) (3#2)%Q) = [24; 30; 31; 32; 38].
Proof.
  eexists. split; [vm_compute; reflexivity|]. split; [do 4 eexists; reflexivity|]. vm_compute. reflexivity.
Qed.

(** * C33: a seg map without any object *)
Theorem C33_all_sky_refuted : exists k types rows psf input junk pjunk f o s wt seg,
  make_meds k types rows psf input junk pjunk = Ok f /\ cutout_at f 0 0 o s /\
  get_cweight_cutout f 0 0 false = Ok wt /\ interpolate_coadd_seg f 0 0 = Ok seg /\
  (forall fuel, get_uberseg fuel f 0 0 false = Err ValueError) /\
  (forall fuel, get_uberseg fuel f 0 0 true = Err OutOfFuel).
Proof.
  pose proof (fun f => MakerLemmas.written_file_wf ex_conf ex_types (ex_seg_rows_of ex_all_sky) None ex_seg_in ex_junk
    (fun i => inject_Z (-5)) f ltac:(repeat constructor; discriminate)) as W.
  exists ex_conf, ex_types, (ex_seg_rows_of ex_all_sky), None, ex_seg_in, ex_junk, (fun i => inject_Z (-5)).
  do 5 eexists. split; [vm_compute; reflexivity|].
  split.
  { split; [vm_compute; reflexivity|]. split; [split; [discriminate|reflexivity]|vm_compute; reflexivity]. }
  split; [vm_compute; reflexivity|]. split; [vm_compute; reflexivity|].
  match goal with |- (forall fuel, get_uberseg fuel ?f _ _ _ = _) /\ _ =>
    assert (H : forall fuel, get_uberseg fuel f 0 0 false = Err ValueError /\ get_uberseg fuel f 0 0 true = Err OutOfFuel) end.
  { eapply UbersegLemmas3.get_all_sky; [apply W; vm_compute; reflexivity|reflexivity| | | | |].
    - split; [vm_compute; reflexivity|]. split; [split; [discriminate|reflexivity]|vm_compute; reflexivity].
    - vm_compute; reflexivity.
    - vm_compute; reflexivity.
    - intros r c v E. assert (I : In v (repeat 0%Q 16)).
      { unfold px in E. destruct (_ && _) in E; [|discriminate]. eapply BaseLemmas.zget_In in E. exact E. }
      apply repeat_spec in I. subst. reflexivity.
    - discriminate. }
  split; intros fuel; [exact (proj1 (H fuel))|exact (proj2 (H fuel))].
Qed.
Print Assumptions C33_all_sky_refuted.

Theorem C33_all_sky : forall f iobj k o s wt seg, file_wf f -> m_number_col f = true -> cutout_at f iobj k o s ->
  get_cweight_cutout f iobj k false = Ok wt -> interpolate_coadd_seg f iobj k = Ok seg ->
  (forall r c v, px seg r c = Some v -> (v == 0)%Q) -> o_number o <> 0 ->
  forall fuel, get_uberseg fuel f iobj k false = Err ValueError /\ get_uberseg fuel f iobj k true = Err OutOfFuel.
Proof. exact UbersegLemmas3.get_all_sky. Qed.
Print Assumptions C33_all_sky.

Theorem C33_returns_partial : forall f iobj k o s wt seg, file_wf f -> m_number_col f = true -> cutout_at f iobj k o s ->
  get_cweight_cutout f iobj k false = Ok wt -> interpolate_coadd_seg f iobj k = Ok seg ->
  forall r0 c0 v0, nonsky seg r0 c0 v0 -> integral seg -> nonnegative seg -> o_number o <> 0 ->
  exists N rf rs, (forall fuel, (N <= fuel)%nat -> get_uberseg fuel f iobj k true = Ok rf) /\
    (forall fuel, get_uberseg fuel f iobj k false = Ok rs).
Proof. exact UbersegLemmas3.get_returns. Qed.
Print Assumptions C33_returns_partial.

(** A seg map of two objects and one of sky only. *)
Example C33_example :
  (exists f o s wt seg, ex_seg_make_of ex_two_objects = Ok f /\ file_wf f /\ m_number_col f = true /\ cutout_at f 0 0 o s /\
    get_cweight_cutout f 0 0 false = Ok wt /\ interpolate_coadd_seg f 0 0 = Ok seg /\ nonsky seg 0 0 1 /\
    integral seg /\ nonnegative seg /\ o_number o <> 0) /\
  (exists f o s wt seg, ex_seg_make_of ex_all_sky = Ok f /\ file_wf f /\ m_number_col f = true /\ cutout_at f 0 0 o s /\
    get_cweight_cutout f 0 0 false = Ok wt /\ interpolate_coadd_seg f 0 0 = Ok seg /\
    (forall r c v, px seg r c = Some v -> (v == 0)%Q) /\ o_number o <> 0).
Proof.
  split; do 5 eexists; (split; [vm_compute; reflexivity|]); (split; [first [apply (ex_seg_wf ex_two_objects); vm_compute; reflexivity | apply (ex_seg_wf ex_all_sky); vm_compute; reflexivity]|]); (split; [reflexivity|]);
    (split; [split; [vm_compute; reflexivity|]; split; [split; [discriminate|reflexivity]|vm_compute; reflexivity]|]);
    (split; [vm_compute; reflexivity|]); (split; [vm_compute; reflexivity|]).
  - split; [split; [reflexivity|discriminate]|]. split; [apply ex_two_ok; vm_compute; reflexivity|].
    split; [apply ex_two_ok; vm_compute; reflexivity|discriminate].
  - split; [|discriminate]. intros r c v E.
    match type of E with px ?seg _ _ = _ => destruct (all_in_ok [0%Q] seg r c v ltac:(vm_compute; reflexivity) E) as (a & [<-|[]] & Q) end.
    exact Q.
Qed.

(** * C34: with two values the composite weight is returned; pixel (3, 3) would be zeroed *)
Theorem C34_shortcut_refuted : exists k types rows psf input junk pjunk f o s wt seg x,
  make_meds k types rows psf input junk pjunk = Ok f /\ cutout_at f 0 0 o s /\
  get_cweight_cutout f 0 0 false = Ok wt /\ interpolate_coadd_seg f 0 0 = Ok seg /\
  (forall fuel fast, get_uberseg fuel f 0 0 fast = Ok wt) /\ px wt 0 0 = Some x /\ x <> 0%Q /\
  px seg 3 3 = Some 2%Q /\ forall r' c' v, nonsky seg r' c' v -> ~ (v == inject_Z (o_number o))%Q.
Proof.
  exists ex_conf, ex_types, (ex_seg_rows_of ex_other_only), None, ex_seg_in, ex_junk, (fun i => inject_Z (-5)).
  do 6 eexists. split; [vm_compute; reflexivity|]. split.
  { split; [vm_compute; reflexivity|]. split; [split; [discriminate|reflexivity]|vm_compute; reflexivity]. }
  split; [vm_compute; reflexivity|]. split; [vm_compute; reflexivity|].
  split; [intros fuel fast; vm_compute; reflexivity|].
  split; [vm_compute; reflexivity|]. split; [vm_compute; discriminate|]. split; [vm_compute; reflexivity|].
  intros r' c' v (E & N). assert (I : In v [0%Q; 2%Q]).
  { unfold px in E. destruct (_ && _) in E; [|discriminate]. eapply BaseLemmas.zget_In in E. cbn in E. cbn. tauto. }
  destruct I as [<-|[<-|[]]]; vm_compute; discriminate.
Qed.
Print Assumptions C34_shortcut_refuted.

Theorem C34_shortcut_partial : forall f iobj k o s0 s seg0 seg wt0 wt segid fuel fast, file_wf f ->
  cutout_at f iobj k o s -> zget (o_slots o) 0 = Some s0 -> k = 0 \/ ~ (jac_det s0 == 0)%Q ->
  get_cutout f iobj k TWeight = Ok wt0 -> get_cutout f iobj 0 TSeg = Ok seg0 ->
  central_seg seg0 s0 segid -> (0 <= s_crow s0)%Q -> (0 <= s_ccol s0)%Q ->
  get_cweight_cutout f iobj k false = Ok wt -> interpolate_coadd_seg f iobj k = Ok seg ->
  two_values seg -> o_number o <> 0 ->
  (exists r c v, px seg r c = Some v /\ (v == inject_Z (o_number o))%Q) ->
  (exists r c v, px seg r c = Some v /\ (v == 0)%Q) \/ (segid == inject_Z (o_number o))%Q ->
  get_uberseg fuel f iobj k fast = Ok wt /\
  pixelwise (fun r c x y => forall r' c' v, nearest seg r c r' c' v -> kept_if (o_number o) v x y) wt wt.
Proof. exact UbersegLemmas3.shortcut_rule. Qed.
Print Assumptions C34_shortcut_partial.

Example C34_example : exists f o s seg wt, ex_seg_make_of ex_own_only = Ok f /\ cutout_at f 0 0 o s /\
  get_cweight_cutout f 0 0 false = Ok wt /\ interpolate_coadd_seg f 0 0 = Ok seg /\ get_cutout f 0 0 TSeg = Ok seg /\
  central_seg seg s 1%Q /\ quniq (dat seg) = [0%Q; 1%Q] /\ o_number o = 1 /\
  px seg 3 3 = Some 1%Q /\ px seg 0 0 = Some 0%Q /\ get_uberseg 0 f 0 0 true = Ok wt /\ px wt 0 0 <> Some 0%Q.
Proof.
  do 5 eexists. split; [vm_compute; reflexivity|]. split.
  { split; [vm_compute; reflexivity|]. split; [split; [discriminate|reflexivity]|vm_compute; reflexivity]. }
  split; [vm_compute; reflexivity|]. split; [vm_compute; reflexivity|]. split; [vm_compute; reflexivity|].
  split; [vm_compute; reflexivity|]. split; [vm_compute; reflexivity|]. split; [reflexivity|].
  split; [vm_compute; reflexivity|]. split; [vm_compute; reflexivity|]. split; [vm_compute; reflexivity|].
  vm_compute; discriminate.
Qed.
