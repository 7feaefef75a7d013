From Coq Require Import String Permutation.
From Verif Require Import Base Img Types BoundsM MakerLayout MakerWrite MakerFile Config SpecConfig ConfigLemmas.
Open Scope Z_scope.
Open Scope string_scope.

Definition it (e : string -> option cval) (k : string) : res cval :=
  match e k with Some v => Ok v | None => Err KeyError end.
Definition sb (e : string -> option cval) (k : string) : res dict :=
  match e k with None => Ok [] | Some (VDict d) => Ok d | Some _ => Err AttributeError end.
Definition mb {A} (f : cval -> res A) (e : string -> option cval) (k : string) : res (option A) :=
  match e k with None => Ok None | Some v => let* a := f v in Ok (Some a) end.
Definition fl (e : string -> option cval) (k : string) : bool :=
  match e k with None => false | Some v => truth v end.
Definition hs (e : string -> option cval) (k : string) : bool :=
  match e k with None => false | Some _ => true end.

(** settings_of with the look-ups abstract; [types] and [extname] already known. *)
Definition rest_of (e : string -> option cval) (psf : res dict) (hp : bool) (types : list string)
  (use : bool) (njob : Z) (c : columns) : res settings :=
  let* v := it e "first_image_is_coadd" in let first := truth v in
  let* v := it e "check_in_coadd" in let check := truth v in
  let* v := it e "force_into_coadd_bounds" in let force := truth v in
  let* v := it e "coadd_bounds_buffer_rowcol" in let* buffer := as_num v in
  let* nmax := mb as_exact_int e "ncutout_max" in
  let* ca := sb e "coadd_astrom" in
  let* sa := sb e "se_astrom" in
  let* psf := psf in
  let* pc := sub psf "coadd" in
  let* ps := sub psf "se" in
  let* unusable := mb as_exact_int e "unusable_bmask" in
  let* v := it e "bounds_buffer_uv" in let* uv := as_num v in
  let* dt := mapM (fun t => let* v := it e (t ++ "_dtype") in as_str v) (map ctype_name SUPPORTED) in
  Ok (mkSettings
        (mkMconf (mkLconf first check force (fl e "trim_to_coadd") buffer nmax
                          (col_color c) (col_wcs_color c)
                          (flag ca "use_color") (flag sa "use_color"))
                 (mkPconf (col_psf_color c) (flag pc "use_color") (flag ps "use_color"))
                 unusable [] use njob (col_number c))
        types uv dt (map (fun t => t ++ "_cutouts") (map ctype_name SUPPORTED)) hp (hs e "min_weight")).

Definition conf_of (e : string -> option cval) (njob : Z) (c : columns) : res settings :=
  let* v := it e "cutout_types" in
  let* l := as_strs v in
  let* l := set_cutout_types l in
  let* v := it e "bitmask_allowed" in
  let* allowed := as_int v in
  let* _ := sb e "joblib" in
  rest_of e (match e "psf_type" with Some t => Ok [("type", t)] | None => sb e "psf" end)
          (hs e "psf_type" || hs e "psf") l
          (if hs e "joblib" then true else fl e "use_joblib") njob c.

Lemma rest_eq self e psf hp types use njob c :
  (forall k, In k known -> k <> "psf" -> k <> "cutout_types" -> k <> "bitmask_allowed" -> lookup self k = e k) ->
  lookup self "cutout_types" = Some (VStrs types) ->
  sub self "psf" = psf -> has self "psf" = hp ->
  (forall k, In k (map fst extra_config) -> lookup self k = lookup extra_config k) ->
  settings_of self use njob c = rest_of e psf hp types use njob c.
Proof.
  intros H Ht Hp Hh He. unfold settings_of, rest_of. rewrite Hp, Hh.
  assert (I1 : forall k, In k known -> k <> "psf" -> k <> "cutout_types" -> k <> "bitmask_allowed" -> item self k = it e k)
    by (intros; unfold item, it; rewrite H by assumption; reflexivity).
  assert (I2 : forall k, In k known -> k <> "psf" -> k <> "cutout_types" -> k <> "bitmask_allowed" -> sub self k = sb e k)
    by (intros; unfold sub, sb; rewrite H by assumption; reflexivity).
  assert (I3 : forall k, In k known -> k <> "psf" -> k <> "cutout_types" -> k <> "bitmask_allowed" -> maybe as_exact_int self k = mb as_exact_int e k)
    by (intros; unfold maybe, mb; rewrite H by assumption; reflexivity).
  assert (I4 : forall k, In k known -> k <> "psf" -> k <> "cutout_types" -> k <> "bitmask_allowed" -> flag self k = fl e k)
    by (intros; unfold flag, fl; rewrite H by assumption; reflexivity).
  assert (I5 : forall k, In k known -> k <> "psf" -> k <> "cutout_types" -> k <> "bitmask_allowed" -> has self k = hs e k)
    by (intros; unfold has, hs; rewrite H by assumption; reflexivity).
  assert (K : forall k, (existsb (String.eqb k) known && negb (String.eqb k "psf") && negb (String.eqb k "cutout_types")
                         && negb (String.eqb k "bitmask_allowed"))%bool = true ->
     In k known /\ k <> "psf" /\ k <> "cutout_types" /\ k <> "bitmask_allowed").
  { intros k B. apply andb_prop in B as [B B4]. apply andb_prop in B as [B B3]. apply andb_prop in B as [B1 B2].
    repeat split.
    - apply existsb_exists in B1 as (x & Hx & E). apply String.eqb_eq in E. subst. exact Hx.
    - intros ->. discriminate B2.
    - intros ->. discriminate B3.
    - intros ->. discriminate B4. }
  rewrite (I1 "first_image_is_coadd") by (apply K; reflexivity).
  rewrite (I1 "check_in_coadd") by (apply K; reflexivity).
  rewrite (I1 "force_into_coadd_bounds") by (apply K; reflexivity).
  rewrite (I1 "coadd_bounds_buffer_rowcol") by (apply K; reflexivity).
  rewrite (I3 "ncutout_max") by (apply K; reflexivity).
  rewrite (I2 "coadd_astrom") by (apply K; reflexivity).
  rewrite (I2 "se_astrom") by (apply K; reflexivity).
  rewrite (I3 "unusable_bmask") by (apply K; reflexivity).
  rewrite (I1 "bounds_buffer_uv") by (apply K; reflexivity).
  rewrite (I4 "trim_to_coadd") by (apply K; reflexivity).
  rewrite (I5 "min_weight") by (apply K; reflexivity).
  assert (Ei : item self "cutout_types" = Ok (VStrs types)) by (unfold item; rewrite Ht; reflexivity). rewrite Ei.
  assert (Ed : mapM (fun t => let* v := item self (t ++ "_dtype") in as_str v) (map ctype_name SUPPORTED)
             = mapM (fun t => let* v := it e (t ++ "_dtype") in as_str v) (map ctype_name SUPPORTED)).
  { cbn [map SUPPORTED ctype_name mapM append].
    rewrite (I1 "image_dtype") by (apply K; reflexivity). rewrite (I1 "weight_dtype") by (apply K; reflexivity).
    rewrite (I1 "seg_dtype") by (apply K; reflexivity). rewrite (I1 "bmask_dtype") by (apply K; reflexivity).
    rewrite (I1 "ormask_dtype") by (apply K; reflexivity). rewrite (I1 "noise_dtype") by (apply K; reflexivity).
    reflexivity. }
  rewrite Ed.
  assert (Ee : mapM (fun t => let* v := item self (t ++ "_cutout_extname") in as_str v) (map ctype_name SUPPORTED)
             = Ok (map (fun t => t ++ "_cutouts") (map ctype_name SUPPORTED))).
  { assert (J : forall k, existsb (String.eqb k) (map fst extra_config) = true -> item self k = item extra_config k).
    { intros k B. unfold item. rewrite He; [reflexivity|]. apply existsb_exists in B as (x & Hx & E).
      apply String.eqb_eq in E. subst. exact Hx. }
    cbn [map SUPPORTED ctype_name mapM append].
    rewrite (J "image_cutout_extname"), (J "weight_cutout_extname"), (J "seg_cutout_extname"),
      (J "bmask_cutout_extname"), (J "ormask_cutout_extname"), (J "noise_cutout_extname") by reflexivity.
    reflexivity. }
  rewrite Ee. cbn [bind as_strs]. reflexivity.
Qed.

Lemma configure_eq d njob c : NoDup (map fst d) ->
  configure (Config d) njob c = conf_of (entry d) njob c.
Proof.
  intros N. pose proof (load_config_eq d N _ eq_refl) as L. unfold configure, conf_of.
  destruct (load_config (Config d)) as [[self use]|err] eqn:E.
  - destruct L as (l & l' & a & v & w & E1 & E2 & E3 & E4 & E5 & L & Hu & Hj).
    cbn [bind fst snd]. unfold it at 1. rewrite E1. cbn [bind]. rewrite E2. cbn [bind]. rewrite E3. cbn [bind].
    unfold it at 1. rewrite E4. cbn [bind]. rewrite E5. cbn [bind].
    assert (exists dj, sb (entry d) "joblib" = Ok dj) as (dj & ->).
    { unfold sb. destruct (entry d "joblib") as [[]|]; try destruct Hj; eexists; reflexivity. }
    cbn [bind].
    assert (use = (if hs (entry d) "joblib" then true else fl (entry d) "use_joblib")) as ->.
    { rewrite Hu. unfold hs, fl. destruct (entry d "joblib"); reflexivity. }
    apply rest_eq.
    + intros k Hk K1 K2 K3. rewrite L. unfold final.
      assert (lookup extra_config k = None /\ "bitmask_allowed_inv" <> k) as [-> K4].
      { clear - Hk. cbn in Hk. repeat destruct Hk as [<-|Hk]; try destruct Hk; (split; [reflexivity|discriminate]). }
      destruct (String.eqb_spec "psf" k); [congruence|].
      destruct (String.eqb_spec "bitmask_allowed_inv" k); [congruence|].
      destruct (String.eqb_spec "bitmask_allowed" k); [congruence|].
      destruct (String.eqb_spec "cutout_types" k); [congruence|]. reflexivity.
    + rewrite L. reflexivity.
    + unfold sub. rewrite L. unfold final. change (lookup extra_config "psf") with (@None cval).
      change ("psf" =? "psf") with true. cbv iota. unfold sb.
      destruct (entry d "psf_type"); [reflexivity|]. destruct (entry d "psf") as [[]|]; reflexivity.
    + unfold has. rewrite L. unfold final. change (lookup extra_config "psf") with (@None cval).
      change ("psf" =? "psf") with true. cbv iota. unfold hs.
      destruct (entry d "psf_type"); [reflexivity|]. destruct (entry d "psf") as [[]|]; reflexivity.
    + intros k Hk. rewrite L. unfold final. destruct (lookup extra_config k) eqn:El; [reflexivity|].
      exfalso. apply lookup_None in El. apply El. apply in_map_iff in Hk as ([k' v'] & <- & Hk). exists v'. exact Hk.
  - clear L. unfold load_config in E. destruct (merged_lookup d N) as (self & Em & L). rewrite Em in E. cbn [bind] in E |- *.
    unfold it at 1. unfold item at 1 in E. rewrite (L "cutout_types") in E.
    destruct (entry d "cutout_types") as [v|]; cbn [bind] in E |- *; [|injection E as <-; reflexivity].
    destruct (as_strs v) as [l|e]; cbn [bind] in E |- *; [|injection E as <-; reflexivity].
    destruct (set_cutout_types l) as [l'|e]; cbn [bind] in E |- *; [|injection E as <-; reflexivity].
    unfold item at 1 in E. rewrite lookup_put in E.
    change (String.eqb "cutout_types" "bitmask_allowed") with false in E. cbv iota in E. rewrite L in E.
    unfold it at 1. destruct (entry d "bitmask_allowed") as [w|]; cbn [bind] in E |- *; [|injection E as <-; reflexivity].
    destruct (as_int w) as [a|e]; cbn [bind] in E |- *; [|injection E as <-; reflexivity].
    unfold sub in E. unfold sb at 1.
    match type of E with context [match lookup ?s "joblib" with _ => _ end] => set (s2 := s) in E end.
    assert (Hj : lookup s2 "joblib" = entry d "joblib").
    { unfold s2. match goal with |- lookup (match ?x with _ => _ end) _ = _ => destruct x end; rewrite ?lookup_put, L; reflexivity. }
    rewrite Hj in E. destruct (entry d "joblib") as [[]|]; cbn [bind] in E |- *; try discriminate E; injection E as <-; reflexivity.
Qed.

Lemma rest_ext e e' psf hp types use njob c :
  (forall k, In k known -> k <> "bitmask_allowed" -> e k = e' k) -> rest_of e psf hp types use njob c = rest_of e' psf hp types use njob c.
Proof.
  intros H. unfold rest_of.
  assert (K : forall k, existsb (String.eqb k) known = true -> k <> "bitmask_allowed" -> e k = e' k).
  { intros k B Nk. apply H; [|exact Nk]. apply existsb_exists in B as (x & Hx & E). apply String.eqb_eq in E. subst. exact Hx. }
  assert (Ed : mapM (fun t => let* v := it e (t ++ "_dtype") in as_str v) (map ctype_name SUPPORTED)
             = mapM (fun t => let* v := it e' (t ++ "_dtype") in as_str v) (map ctype_name SUPPORTED)).
  { cbn [map SUPPORTED ctype_name mapM append]. unfold it.
    rewrite (K "image_dtype"), (K "weight_dtype"), (K "seg_dtype"), (K "bmask_dtype"), (K "ormask_dtype"), (K "noise_dtype") by (reflexivity || discriminate).
    reflexivity. }
  rewrite Ed. unfold it, sb, mb, fl, hs.
  rewrite (K "first_image_is_coadd"), (K "check_in_coadd"), (K "force_into_coadd_bounds"),
    (K "coadd_bounds_buffer_rowcol"), (K "ncutout_max"), (K "coadd_astrom"), (K "se_astrom"),
    (K "unusable_bmask"), (K "bounds_buffer_uv"), (K "trim_to_coadd"), (K "min_weight") by (reflexivity || discriminate).
  reflexivity.
Qed.

Lemma conf_ext e e' njob c : (forall k, In k known -> e k = e' k) -> conf_of e njob c = conf_of e' njob c.
Proof.
  intros H. unfold conf_of.
  assert (K : forall k, existsb (String.eqb k) known = true -> e k = e' k).
  { intros k B. apply H. apply existsb_exists in B as (x & Hx & E). apply String.eqb_eq in E. subst. exact Hx. }
  unfold it, sb, fl, hs.
  rewrite (K "cutout_types"), (K "bitmask_allowed"), (K "joblib"), (K "use_joblib"), (K "psf"), (K "psf_type") by reflexivity.
  destruct (e' "cutout_types") as [v|]; cbn [bind]; [|reflexivity].
  destruct (as_strs v); cbn [bind]; [|reflexivity]. destruct (set_cutout_types a); cbn [bind]; [|reflexivity].
  destruct (e' "bitmask_allowed") as [w|]; cbn [bind]; [|reflexivity].
  destruct (as_int w); cbn [bind]; [|reflexivity].
  destruct (e' "joblib") as [[]|]; cbn [bind]; try reflexivity; apply rest_ext; auto.
Qed.

(** Only the known entries matter, in any order. *)
Lemma configure_same d d' njob c :
  NoDup (map fst d) -> NoDup (map fst d') ->
  (forall k v, In k known -> (In (k, v) d <-> In (k, v) d')) ->
  configure (Config d) njob c = configure (Config d') njob c.
Proof.
  intros N N' H. rewrite !configure_eq by assumption. apply conf_ext. intros k Hk. unfold entry.
  assert (lookup d k = lookup d' k) as ->; [|reflexivity].
  destruct (lookup d k) as [v|] eqn:E.
  - symmetry. apply In_lookup; [assumption|]. apply H; [assumption|]. apply lookup_In; assumption.
  - destruct (lookup d' k) as [v|] eqn:E'; [|reflexivity].
    apply lookup_In in E'. apply H in E'; [|assumption]. apply (In_lookup d N) in E'. congruence.
Qed.
Lemma make_same d d' njob c rows psf input junk pjunk :
  NoDup (map fst d) -> NoDup (map fst d') ->
  (forall k v, In k known -> (In (k, v) d <-> In (k, v) d')) ->
  make_from_config (Config d) njob c rows psf input junk pjunk =
  make_from_config (Config d') njob c rows psf input junk pjunk.
Proof. intros N N' H. unfold make_from_config. rewrite (configure_same d d') by assumption. reflexivity. Qed.
