(** Vocabulary for the answers of the reader about one object. *)
From Verif Require Import Base Img Types Reader Composite Uberseg.
Open Scope Z_scope.

(** Every accessor says the same of object [i] of [g] and object [j] of [h]. *)
Definition same_answers (g : medsfile) (i : Z) (h : medsfile) (j : Z) : Prop :=
  (forall t, t = TImage \/ t = TWeight \/ t = TSeg \/ t = TBmask ->
     get_mosaic g i t = get_mosaic h j t /\ get_cutout_list g i t = get_cutout_list h j t /\
     forall k, 0 <= k -> get_cutout g i k t = get_cutout h j k t) /\
  (get_number g i = get_number h j /\ get_psf_list g i = get_psf_list h j /\ get_jacobian_list g i = get_jacobian_list h j) /\
  (forall k, 0 <= k ->
     get_psf g i k = get_psf h j k /\ get_jacobian g i k = get_jacobian h j k /\
     get_jacobian_matrix g i k = get_jacobian_matrix h j k /\ get_cutout_rowcol g i k = get_cutout_rowcol h j k /\
     get_source_info g i k = get_source_info h j k /\ get_source_path g i k = get_source_path h j k) /\
  (forall k, 0 <= k ->
     (forall restrict, get_cweight_cutout g i k restrict = get_cweight_cutout h j k restrict) /\
     get_cseg_cutout g i k = get_cseg_cutout h j k /\
     interpolate_coadd_seg g i k = interpolate_coadd_seg h j k /\
     (forall canonical, get_cseg_weight g i k canonical = get_cseg_weight h j k canonical) /\
     (forall fuel fast, get_uberseg fuel g i k fast = get_uberseg fuel h j k fast)) /\
  (forall restrict, get_cweight_mosaic g i restrict = get_cweight_mosaic h j restrict /\
     get_cweight_cutout_list g i restrict = get_cweight_cutout_list h j restrict) /\
  get_cseg_mosaic g i = get_cseg_mosaic h j /\ get_cseg_cutout_list g i = get_cseg_cutout_list h j /\
  interpolate_coadd_seg_mosaic g i = interpolate_coadd_seg_mosaic h j /\
  forall fuel fast, get_uberseg_list fuel g i fast = get_uberseg_list fuel h j fast.
