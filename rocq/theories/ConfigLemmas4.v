From Coq Require Import String Permutation.
From Verif Require Import Base Img Types BoundsM MakerLayout MakerWrite MakerFile Config SpecConfig ConfigLemmas ConfigLemmas2 ConfigLemmas3 BaseLemmas.
Open Scope Z_scope.
Open Scope string_scope.

Lemma it_inv d k v : it (entry d) k = Ok v -> entry d k = Some v.
Proof. unfold it. destruct (entry d k); intros H; [injection H as ->; reflexivity|discriminate H]. Qed.

(** Everything a successful configuration went through. *)
Lemma configure_inv d njob c s : NoDup (map fst d) -> configure (Config d) njob c = Ok s ->
  exists vt lt lt' vb ab dj vf vc vo vr buffer nmax ca sa psf pc ps un vu uv dt,
    entry d "cutout_types" = Some vt /\ as_strs vt = Ok lt /\ set_cutout_types lt = Ok lt' /\
    entry d "bitmask_allowed" = Some vb /\ as_int vb = Ok ab /\ sb (entry d) "joblib" = Ok dj /\
    entry d "first_image_is_coadd" = Some vf /\ entry d "check_in_coadd" = Some vc /\
    entry d "force_into_coadd_bounds" = Some vo /\ entry d "coadd_bounds_buffer_rowcol" = Some vr /\
    as_num vr = Ok buffer /\ mb as_exact_int (entry d) "ncutout_max" = Ok nmax /\
    sb (entry d) "coadd_astrom" = Ok ca /\ sb (entry d) "se_astrom" = Ok sa /\
    (match entry d "psf_type" with Some t => Ok [("type", t)] | None => sb (entry d) "psf" end) = Ok psf /\
    sub psf "coadd" = Ok pc /\ sub psf "se" = Ok ps /\
    mb as_exact_int (entry d) "unusable_bmask" = Ok un /\
    entry d "bounds_buffer_uv" = Some vu /\ as_num vu = Ok uv /\
    mapM (fun t => let* v := it (entry d) (t ++ "_dtype") in as_str v) (map ctype_name SUPPORTED) = Ok dt /\
    s = mkSettings
        (mkMconf (mkLconf (truth vf) (truth vc) (truth vo) (fl (entry d) "trim_to_coadd") buffer nmax
                          (col_color c) (col_wcs_color c)
                          (flag ca "use_color") (flag sa "use_color"))
                 (mkPconf (col_psf_color c) (flag pc "use_color") (flag ps "use_color"))
                 un [] (if hs (entry d) "joblib" then true else fl (entry d) "use_joblib") njob (col_number c))
        lt' uv dt (map (fun t => t ++ "_cutouts") (map ctype_name SUPPORTED))
        (hs (entry d) "psf_type" || hs (entry d) "psf") (hs (entry d) "min_weight").
Proof.
  intros N H. rewrite configure_eq in H by exact N. unfold conf_of, rest_of in H.
  apply bind_ok in H as (vt & E1 & H). apply bind_ok in H as (lt & E2 & H). apply bind_ok in H as (lt' & E3 & H).
  apply bind_ok in H as (vb & E4 & H). apply bind_ok in H as (ab & E5 & H). apply bind_ok in H as (dj & E6 & H).
  apply bind_ok in H as (vf & E7 & H). apply bind_ok in H as (vc & E8 & H). apply bind_ok in H as (vo & E9 & H).
  apply bind_ok in H as (vr & E10 & H). apply bind_ok in H as (buffer & E11 & H).
  apply bind_ok in H as (nmax & E12 & H). apply bind_ok in H as (ca & E13 & H). apply bind_ok in H as (sa & E14 & H).
  apply bind_ok in H as (psf & E15 & H). apply bind_ok in H as (pc & E16 & H). apply bind_ok in H as (ps & E17 & H).
  apply bind_ok in H as (un & E18 & H). apply bind_ok in H as (vu & E19 & H). apply bind_ok in H as (uv & E20 & H).
  apply bind_ok in H as (dt & E21 & H).
  apply it_inv in E1. apply it_inv in E4. apply it_inv in E7. apply it_inv in E8. apply it_inv in E9.
  apply it_inv in E10. apply it_inv in E19. apply (f_equal (fun r => match r with Ok x => Some x | Err _ => None end)) in H.
  assert (H' := H). cbv beta iota in H'.
  match type of H' with Some ?x = Some s => assert (E : s = x) by congruence end. clear H H'.
  exists vt, lt, lt', vb, ab, dj, vf, vc, vo, vr, buffer, nmax, ca, sa, psf, pc, ps, un, vu, uv, dt.
  repeat (split; [assumption|]). exact E.
Qed.

Lemma num_in_force d k q v0 v : NoDup (map fst d) -> lookup default_config k = Some v0 ->
  entry d k = Some v -> as_num v = Ok q -> exists v, in_force d k v0 v /\ number v q.
Proof. intros N Hd E Hq. exists v. split; [apply entry_in_force; assumption|apply as_num_number, Hq]. Qed.

Lemma layout_values d njob c s : unique d -> configure (Config d) njob c = Ok s ->
  let L := k_l (st_conf s) in
  (first_image_is_coadd L = true <-> on d "first_image_is_coadd" true) /\
  (check_in_coadd L = true <-> on d "check_in_coadd" true) /\
  (force_into_coadd_bounds L = true <-> on d "force_into_coadd_bounds" true) /\
  (trim_to_coadd L = true <-> on d "trim_to_coadd" false) /\
  (exists v, in_force d "coadd_bounds_buffer_rowcol" (VNum (1 # 1000)) v /\ number v (coadd_bounds_buffer_rowcol L)) /\
  (exists v, in_force d "bounds_buffer_uv" (VNum 16) v /\ number v (st_uv s)) /\
  (forall z, ncutout_max L = Some z <-> exists v, In ("ncutout_max", v) d /\ integer v z) /\
  (coadd_astrom_color L = true <-> on1 d "coadd_astrom" "use_color") /\
  (se_astrom_color L = true <-> on1 d "se_astrom" "use_color") /\
  has_color L = col_color c /\ has_wcs_color L = col_wcs_color c.
Proof.
  intros U H. pose proof (proj1 U) as N.
  destruct (configure_inv d njob c s N H) as (vt & lt & lt' & vb & ab & dj & vf & vc & vo & vr & buffer & nmax & ca & sa & psf & pc & ps & un & vu & uv & dt & E1 & E2 & E3 & E4 & E5 & E6 & E7 & E8 & E9 & E10 & E11 & E12 & E13 & E14 & E15 & E16 & E17 & E18 & E19 & E20 & E21 & ->).
  cbn [st_conf k_l first_image_is_coadd check_in_coadd force_into_coadd_bounds trim_to_coadd coadd_bounds_buffer_rowcol
       ncutout_max has_color has_wcs_color coadd_astrom_color se_astrom_color st_uv].
  split; [apply on_default; [exact N|reflexivity|assumption]|].
  split; [apply on_default; [exact N|reflexivity|assumption]|].
  split; [apply on_default; [exact N|reflexivity|assumption]|].
  split; [apply on_flag; [exact N|reflexivity]|].
  split; [eapply num_in_force; [exact N|reflexivity|eassumption|assumption]|].
  split; [eapply num_in_force; [exact N|reflexivity|eassumption|assumption]|].
  split; [apply (mb_integer d "ncutout_max" nmax N eq_refl E12)|].
  split; [apply sb_on1; [exact U|reflexivity|assumption]|].
  split; [apply sb_on1; [exact U|reflexivity|assumption]|].
  split; reflexivity.
Qed.

Lemma output_values d njob c s : unique d -> configure (Config d) njob c = Ok s ->
  let K := st_conf s in
  (psf_coadd_color (k_p K) = true <-> ~ given d "psf_type" /\ on2 d "psf" "coadd" "use_color") /\
  (psf_se_color (k_p K) = true <-> ~ given d "psf_type" /\ on2 d "psf" "se" "use_color") /\
  has_psf_color (k_p K) = col_psf_color c /\
  (forall z, k_unusable K = Some z <-> exists v, In ("unusable_bmask", v) d /\ integer v z) /\
  (k_joblib K = true <-> given d "joblib" \/ on d "use_joblib" false) /\
  k_njob K = njob /\ k_number_col K = col_number c /\
  (exists l, in_force d "cutout_types" (VStrs []) (VStrs l) /\ types_in_order l (st_types s)) /\
  Forall2 (fun kd s => in_force d (fst kd) (VStr (snd kd)) (VStr s)) dtype_defaults (st_dtype s) /\
  (st_psf s = true <-> given d "psf" \/ given d "psf_type") /\
  (st_min_weight s = true <-> given d "min_weight").
Proof.
  intros U H. pose proof (proj1 U) as N.
  destruct (configure_inv d njob c s N H) as (vt & lt & lt' & vb & ab & dj & vf & vc & vo & vr & buffer & nmax & ca & sa & psf & pc & ps & un & vu & uv & dt & E1 & E2 & E3 & E4 & E5 & E6 & E7 & E8 & E9 & E10 & E11 & E12 & E13 & E14 & E15 & E16 & E17 & E18 & E19 & E20 & E21 & ->).
  cbn [st_conf k_p k_unusable k_joblib k_njob k_number_col psf_coadd_color psf_se_color has_psf_color st_types st_dtype st_psf st_min_weight].
  split; [apply (psf_on2 d psf "coadd" pc "use_color" U E15 E16); discriminate|].
  split; [apply (psf_on2 d psf "se" ps "use_color" U E15 E17); discriminate|].
  split; [reflexivity|].
  split; [apply (mb_integer d "unusable_bmask" un N eq_refl E18)|].
  split.
  { rewrite <- (hs_given d "joblib" N eq_refl), <- (on_flag d "use_joblib" N eq_refl).
    destruct (hs (entry d) "joblib"), (fl (entry d) "use_joblib"); intuition congruence. }
  split; [reflexivity|]. split; [reflexivity|].
  split.
  { exists lt. split; [|apply set_types_order, E3]. apply as_strs_eq in E2. subst vt.
    apply (entry_in_force d "cutout_types" _ _ N eq_refl). exact E1. }
  split.
  { clear - N E21. unfold dtype_defaults. cbn [map SUPPORTED ctype_name append] in E21.
    repeat match goal with
    | E : mapM _ (_ :: _) = Ok _ |- _ => cbn [mapM] in E
    | E : bind _ _ = Ok _ |- _ => let x := fresh "x" in let Ex := fresh "Ex" in apply bind_ok in E as (x & Ex & E)
    | E : it _ _ = Ok _ |- _ => apply it_inv in E
    | E : as_str _ = Ok _ |- _ => apply as_str_eq in E; subst
    | E : mapM _ [] = Ok _ |- _ => cbn [mapM] in E
    | E : Ok _ = Ok _ |- _ => injection E as <-
    end.
    repeat (constructor; [cbn [fst snd]; eapply entry_in_force; [exact N|reflexivity|assumption]|]). constructor. }
  split.
  { rewrite <- (hs_given d "psf" N eq_refl), <- (hs_given d "psf_type" N eq_refl).
    destruct (hs (entry d) "psf"), (hs (entry d) "psf_type"); intuition congruence. }
  apply hs_given; [exact N|reflexivity].
Qed.
