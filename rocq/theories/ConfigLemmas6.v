From Coq Require Import String Permutation.
From Verif Require Import Base Img Types BoundsM MakerLayout MakerWrite MakerFile Config SpecConfig ConfigLemmas ConfigLemmas2 ConfigLemmas3 BaseLemmas ConfigLemmas4 ConfigLemmas5.
Open Scope Z_scope.
Open Scope string_scope.

Lemma bitmask_no_effect d z njob c : NoDup (map fst d) -> ~ given d "bitmask_allowed" ->
  configure (Config (("bitmask_allowed", VInt z) :: d)) njob c = configure (Config d) njob c.
Proof.
  intros N G.
  assert (N' : NoDup (map fst (("bitmask_allowed", VInt z) :: d))).
  { cbn. constructor; [|exact N]. intros H. apply in_map_iff in H as ([k v] & E & H). cbn in E. subst k.
    apply G. exists v. exact H. }
  rewrite !configure_eq by assumption.
  assert (K : forall k, k <> "bitmask_allowed" -> entry (("bitmask_allowed", VInt z) :: d) k = entry d k).
  { intros k Hk. unfold entry. cbn [lookup]. destruct (String.eqb_spec "bitmask_allowed" k); [congruence|reflexivity]. }
  unfold conf_of.
  assert (E1 : it (entry (("bitmask_allowed", VInt z) :: d)) "bitmask_allowed" = Ok (VInt z)) by reflexivity.
  assert (E2 : it (entry d) "bitmask_allowed" = Ok (VInt 0)).
  { unfold it, entry. apply lookup_None in G. rewrite G. reflexivity. }
  rewrite E1, E2. cbn [bind as_int].
  unfold it, sb, hs, fl. rewrite (K "cutout_types"), (K "joblib"), (K "psf_type"), (K "psf"), (K "use_joblib") by discriminate.
  destruct (entry d "cutout_types") as [v|]; cbn [bind]; [|reflexivity].
  destruct (as_strs v); cbn [bind]; [|reflexivity]. destruct (set_cutout_types a); cbn [bind]; [|reflexivity].
  destruct (entry d "joblib") as [[]|]; cbn [bind]; try reflexivity; apply rest_ext; intros k _ Hk; apply K, Hk.
Qed.
Lemma bitmask_no_effect_file d z njob c rows psf input junk pjunk : unique d -> ~ given d "bitmask_allowed" ->
  make_from_config (Config (("bitmask_allowed", VInt z) :: d)) njob c rows psf input junk pjunk =
  make_from_config (Config d) njob c rows psf input junk pjunk.
Proof. intros [N _] G. unfold make_from_config. rewrite bitmask_no_effect by assumption. reflexivity. Qed.

Lemma no_config njob c : configure NoConfig njob c = configure (Config []) njob c /\
  configure (Config default_config) njob c = configure NoConfig njob c /\
  configure NotDict njob c = Err RuntimeError.
Proof. repeat split; reflexivity. Qed.

Lemma types_again l l' : set_cutout_types l = Ok l' -> set_cutout_types l' = Ok l'.
Proof.
  unfold set_cutout_types.
  set (m := if existsb (String.eqb "image") l then py_remove l "image" else l). clearbody m.
  match goal with |- context [existsb ?f ("image" :: m)] => destruct (existsb f ("image" :: m)) eqn:E end; intros H; [discriminate H|].
  injection H as <-. change (existsb (String.eqb "image") ("image" :: m)) with true. cbv iota.
  change (py_remove ("image" :: m) "image") with m. rewrite E. reflexivity.
Qed.

(** Types of the file: as configured. *)
Lemma ext_fixed d njob c s : NoDup (map fst d) -> configure (Config d) njob c = Ok s ->
  st_extname s = ["image_cutouts"; "weight_cutouts"; "seg_cutouts"; "bmask_cutouts"; "ormask_cutouts"; "noise_cutouts"].
Proof.
  intros N H.
  destruct (configure_inv d njob c s N H) as (vt & lt & lt' & vb & ab & dj & vf & vc & vo & vr & buffer & nmax & ca & sa & psf & pc & ps & un & vu & uv & dt & E).
  destruct E as (_ & _ & _ & _ & _ & _ & _ & _ & _ & _ & _ & _ & _ & _ & _ & _ & _ & _ & _ & _ & _ & ->). reflexivity.
Qed.

Lemma unique_flat d : NoDup (map fst d) -> (forall k e, ~ In (k, VDict e) d) -> unique d.
Proof. intros N H. split; [exact N|]. intros k e He. destruct (H k e He). Qed.

Lemma bitmask_refuted : exists z, z <> 0 /\
  forall d njob c rows psf input junk pjunk, unique d -> ~ given d "bitmask_allowed" ->
  make_from_config (Config (("bitmask_allowed", VInt z) :: d)) njob c rows psf input junk pjunk =
  make_from_config (Config d) njob c rows psf input junk pjunk.
Proof. exists 2049. split; [discriminate|]. intros d njob c rows psf input junk pjunk. exact (bitmask_no_effect_file d 2049 njob c rows psf input junk pjunk). Qed.

Lemma unique_one k e : NoDup (map fst e) -> (forall k' f, In (k', VDict f) e -> NoDup (map fst f)) ->
  forall d, NoDup (map fst d) -> (forall k' f, In (k', VDict f) d -> k' = k /\ f = e) -> unique d.
Proof. intros Ne Ue d N H. split; [exact N|]. intros k' f Hf. destruct (H k' f Hf) as [-> ->]. split; assumption. Qed.

Lemma psf_refuted : exists d s, unique d /\ on2 d "psf" "se" "use_color" /\
  configure (Config d) 1 (mkColumns false false true false) = Ok s /\
  has_psf_color (k_p (st_conf s)) = true /\ psf_se_color (k_p (st_conf s)) = false.
Proof.
  exists ex_psf_both.
  assert (U : unique ex_psf_both).
  { apply (unique_one "psf" [("se", VDict [("use_color", VBool true)])]).
    - cbn. constructor; [intros []|constructor].
    - intros k' f [H|[]]. injection H as <- <-. cbn. constructor; [intros []|constructor].
    - cbn. constructor; [intros [H|[]]; discriminate H|]. constructor; [intros []|constructor].
    - intros k' f [H|[H|[]]]; [injection H as <- <-; split; reflexivity|discriminate H]. }
  assert (O : on2 ex_psf_both "psf" "se" "use_color").
  { exists [("se", VDict [("use_color", VBool true)])], [("use_color", VBool true)], (VBool true).
    split; [left; reflexivity|]. split; [left; reflexivity|]. split; [left; reflexivity|]. intros F; inversion F. }
  assert (C : exists s, configure (Config ex_psf_both) 1 (mkColumns false false true false) = Ok s /\
     has_psf_color (k_p (st_conf s)) = true /\ psf_se_color (k_p (st_conf s)) = false).
  { vm_compute. eexists. split; [reflexivity|]. split; reflexivity. }
  destruct C as (s & C). exists s. split; [exact U|]. split; [exact O|exact C].
Qed.

Lemma joblib_refuted : exists d s, unique d /\ In ("use_joblib", VBool false) d /\
  configure (Config d) 1 (mkColumns false false false false) = Ok s /\ k_joblib (st_conf s) = true.
Proof.
  exists ex_joblib_off.
  assert (U : unique ex_joblib_off).
  { apply (unique_one "joblib" [("max_workers", VInt 4)]).
    - cbn. constructor; [intros []|constructor].
    - intros k' f [H|[]]. discriminate H.
    - cbn. constructor; [intros [H|[]]; discriminate H|]. constructor; [intros []|constructor].
    - intros k' f [H|[H|[]]]; [discriminate H|injection H as <- <-; split; reflexivity]. }
  assert (C : exists s, configure (Config ex_joblib_off) 1 (mkColumns false false false false) = Ok s /\
     k_joblib (st_conf s) = true).
  { vm_compute. eexists. split; reflexivity. }
  destruct C as (s & C). exists s. split; [exact U|]. split; [left; reflexivity|exact C].
Qed.

Lemma text_refuted : exists d s, unique d /\ In ("first_image_is_coadd", VStr "False") d /\
  configure (Config d) 1 ex_cols = Ok s /\ first_image_is_coadd (k_l (st_conf s)) = true.
Proof.
  exists [("first_image_is_coadd", VStr "False")].
  assert (U : unique [("first_image_is_coadd", VStr "False")]).
  { apply unique_flat.
    - cbn. constructor; [intros []|constructor].
    - intros k e [H|[]]. discriminate H. }
  assert (C : exists s, configure (Config [("first_image_is_coadd", VStr "False")]) 1 ex_cols = Ok s /\
     first_image_is_coadd (k_l (st_conf s)) = true).
  { vm_compute. eexists. split; reflexivity. }
  destruct C as (s & C). exists s. split; [exact U|]. split; [left; reflexivity|exact C].
Qed.
