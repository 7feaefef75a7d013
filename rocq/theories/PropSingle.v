(** Property theorems on the tree search in single precision: C79. *)
From Coq Require Import String Permutation.
From Verif Require Import Base Img Types Reader BoundsM MakerLayout MakerWrite MakerFile Composite Fast3tree Uberseg Single UbersegFl
  SpecTiles SpecLayout SpecFile SpecComposite SpecUberseg ExampleData.
From Verif Require BaseLemmas MakerLemmas SingleLemmas UbersegFlLemmas UbersegFlLemmas2.
Open Scope Z_scope.

(** * C79: rounding does not change the pixel found *)
Theorem C79_single_precision : forall f iobj k o s wt seg, file_wf f -> m_number_col f = true -> cutout_at f iobj k o s ->
  get_cweight_cutout f iobj k false = Ok wt -> interpolate_coadd_seg f iobj k = Ok seg ->
  2 * (o_box o * o_box o) <= 2 ^ 24 ->
  forall r0 c0 v0, ~ two_values seg -> nonsky seg r0 c0 v0 -> integral seg -> nonnegative seg -> o_number o <> 0 ->
  exists N res, (forall fuel, (N <= fuel)%nat -> get_uberseg_f fuel f iobj k = Ok res) /\
    pixelwise (fun r c x y => exists r' c' v, nearest seg r c r' c' v /\ kept_if (o_number o) v x y) wt res.
Proof. exact UbersegFlLemmas2.get_fast_f. Qed.
Print Assumptions C79_single_precision.

Theorem C79_equals_python_without_ties : forall f iobj k o s wt seg,
  file_wf f -> m_number_col f = true -> cutout_at f iobj k o s ->
  get_cweight_cutout f iobj k false = Ok wt -> interpolate_coadd_seg f iobj k = Ok seg ->
  2 * (o_box o * o_box o) <= 2 ^ 24 ->
  forall r0 c0 v0, ~ two_values seg -> nonsky seg r0 c0 v0 -> integral seg -> nonnegative seg -> o_number o <> 0 ->
  exists N rf rs, (forall fuel, (N <= fuel)%nat -> get_uberseg_f fuel f iobj k = Ok rf) /\
    (forall fuel, get_uberseg fuel f iobj k false = Ok rs) /\ nr rf = nr rs /\ nc rf = nc rs /\
    forall r c, (forall r1 c1 v1 r2 c2 v2, nearest seg r c r1 c1 v1 -> nearest seg r c r2 c2 v2 -> (v1 == v2)%Q) ->
      px rf r c = px rs r c.
Proof. exact UbersegFlLemmas2.get_fast_f_slow. Qed.
Print Assumptions C79_equals_python_without_ties.

Theorem C79_any_arrays : forall seg weight num,
  0 < nr seg /\ 0 < nc seg /\ nr seg * nr seg + nc seg * nc seg <= 2 ^ 24 ->
  img_ok seg -> img_ok weight -> same_shape seg weight -> integral seg -> nonnegative seg -> num <> 0 ->
  (forall r c v, px seg r c = Some v -> ~ (v == 0)%Q) \/
  (exists r1 c1 v1 r2 c2 v2, nonsky seg r1 c1 v1 /\ nonsky seg r2 c2 v2 /\ (r1, c1) <> (r2, c2)) ->
  exists N res, (forall fuel, (N <= fuel)%nat -> uberseg_tree_f fuel (imap qtrunc seg) weight num (obj_inds seg) = Ok res) /\
    pixelwise (fun r c x y => exists r' c' v, nearest seg r c r' c' v /\ kept_if num v x y) weight res.
Proof. exact UbersegFlLemmas2.tree_f_ok. Qed.
Print Assumptions C79_any_arrays.

(** The rounding: half a unit of the last place, and exact on integers. *)
Theorem C79_rounding : forall p x, 1 <= p -> (0 <= x)%Q ->
  (x * (1 - Qpower (2#1) (- p)) <= rnd p x <= x * (1 + Qpower (2#1) (- p)))%Q.
Proof. exact SingleLemmas.rnd_err. Qed.
Print Assumptions C79_rounding.

Theorem C79_integers : forall p x z, 1 <= p -> (x == inject_Z z)%Q -> - 2 ^ p < z < 2 ^ p -> (rnd p x == inject_Z z)%Q.
Proof. exact SingleLemmas.rnd_exact. Qed.
Print Assumptions C79_integers.

Example C79_rounding_example : f32 (1#10) = 13421773 # 134217728 /\ f32 (inject_Z (2 ^ 24 + 1)) = inject_Z (2 ^ 24) /\
  f32 (inject_Z (2 ^ 24 + 3)) = inject_Z (2 ^ 24 + 4) /\ fsqrt 2 = 11863283 # 8388608 /\ (fac_grow fac0 == 1)%Q.
Proof. repeat (split; [vm_compute; reflexivity|]). vm_compute. reflexivity. Qed.

Example C79_example : exists f o s wt seg res, ex_seg_make_of ex_two_objects = Ok f /\ m_number_col f = true /\
  cutout_at f 0 0 o s /\ get_cweight_cutout f 0 0 false = Ok wt /\ interpolate_coadd_seg f 0 0 = Ok seg /\
  2 * (o_box o * o_box o) <= 2 ^ 24 /\
  quniq (dat seg) = [1%Q; 0%Q; 2%Q] /\ nonsky seg 0 0 1 /\ o_number o = 1 /\
  get_uberseg_f 30 f 0 0 = Ok res /\ px res 1 1 = px wt 1 1 /\ px wt 1 1 = Some (1065#4) /\
  px res 3 1 = Some 0%Q /\ px wt 3 1 = Some (1105#4).
Proof.
  do 6 eexists. split; [vm_compute; reflexivity|]. split; [reflexivity|]. split.
  { split; [vm_compute; reflexivity|]. split; [split; [discriminate|reflexivity]|vm_compute; reflexivity]. }
  split; [vm_compute; reflexivity|]. split; [vm_compute; reflexivity|]. split; [vm_compute; discriminate|]. split; [vm_compute; reflexivity|].
  split; [split; [vm_compute; reflexivity|discriminate]|].
  split; [vm_compute; reflexivity|]. repeat (split; [vm_compute; reflexivity|]). vm_compute; reflexivity.
Qed.

(** The bound on the size is needed: in a stamp of 2 by 4097 pixels with two object
    pixels the number found for the pixel (1, 0) is that of the farther one. *)
Example C79_limit : exists t,
  fast3tree_build_f [mkPt 0 5 0 4096; mkPt 1 3 1 4096] = Ok t /\
  nearest_seg_f 100 t (maxr_f 2 4097) 1 0 = Ok 5 /\ pix2 1 0 1 4096 < pix2 1 0 0 4096.
Proof. eexists. split; [vm_compute; reflexivity|]. split; [vm_compute; reflexivity|reflexivity]. Qed.
