(** More consequences: independence of the reserved space, psf round trip, coadd rules. *)
From Coq Require Import Lia ZifyBool ZifyNat String Sorted.
From Verif Require Import Base BaseLemmas Img ImgLemmas Types Reader MakerLayout MakerWrite MakerFile
  SpecTiles SpecLayout SpecFile StartLemmas StampLemmas WriteLemmas LayoutLemmas BuildLemmas PsfLemmas
  ReadLemmas CalibLemmas FileLemmas MakerLemmas.
Open Scope Z_scope.
Ltac Zify.zify_post_hook ::= Z.div_mod_to_equations.

Lemma foldM_sim {T X} (R : T -> T -> Prop) (f : T -> X -> res T) xs :
  (forall s1 s2 x s1', In x xs -> R s1 s2 -> f s1 x = Ok s1' -> exists s2', f s2 x = Ok s2' /\ R s1' s2') ->
  forall s1 s2 s1', R s1 s2 -> foldM f xs s1 = Ok s1' -> exists s2', foldM f xs s2 = Ok s2' /\ R s1' s2'.
Proof.
  induction xs as [|x xs IH]; intros H s1 s2 s1' HR E; cbn [foldM] in *.
  - inversion E; subst. exists s2. split; [reflexivity|exact HR].
  - apply bind_ok in E. destruct E as (a & E1 & E2).
    destruct (H s1 s2 x a (or_introl eq_refl) HR E1) as (b & B1 & B2). rewrite B1. cbn [bind].
    eapply IH; [|exact B2|exact E2]. intros; eapply H; eauto. right; assumption.
Qed.

Lemma foldM_mem {T X} (f : T -> X -> res T) xs : forall s s' x, foldM f xs s = Ok s' -> In x xs ->
  exists a b, f a x = Ok b.
Proof.
  induction xs as [|y xs IH]; intros s s' x E Hx; [contradiction|]. cbn [foldM] in E.
  apply bind_ok in E. destruct E as (a & E1 & E2). destruct Hx as [->|Hx]; [exists s, a; exact E1|].
  eapply IH; eassumption.
Qed.

Lemma tiles_cover rs : forall a b p, tiles a rs b -> a <= p < b -> exists r, In r rs /\ fst r <= p < snd r.
Proof.
  induction rs as [|r rs IH]; intros a b p H Hp; inversion H as [|a' m rs' b' Hle Ht E1 E2 E3]; subst; [lia|].
  destruct (Z_lt_dec p m) as [Hm|Hm].
  - exists (a, m). split; [left; reflexivity|simpl; lia].
  - destruct (IH m b p Ht) as (r & R1 & R2); [lia|]. exists r. split; [right; exact R1|exact R2].
Qed.

(** Without a fill value any cutout with pixels is an error. *)
Lemma write_cutouts_nofill {A} e cat nfile (read : Z -> res (option (img A))) hdu hdu' :
  Forall (fun o => 0 <= o_ncut o <= zlen (o_slots o)) cat ->
  write_cutouts (Err e) cat nfile read hdu = Ok hdu' ->
  forall k im, In k (cat_keys cat) -> 0 <= s_file (k_slot k) < nfile -> read (s_file (k_slot k)) <> Ok (Some im).
Proof.
  intros Hwf H k im Hk Hf Hr. unfold write_cutouts in H.
  destruct (foldM_mem _ _ _ _ (s_file (k_slot k)) H) as (a & b & E); [apply In_zrange; exact Hf|].
  rewrite Hr in E. cbn [bind] in E. unfold write_file_cutouts in E.
  rewrite (foldM_cat_keys (fun hdu o icut s => if s_file s =? s_file (k_slot k) then write_cutout (Err e) o icut hdu im else Ok hdu)
             cat a Hwf) in E.
  destruct (foldM_mem _ _ _ _ k E Hk) as (a' & b' & E').
  rewrite Z.eqb_refl in E'. unfold write_cutout in E'. apply bind_ok in E'. destruct E' as (s & _ & E').
  apply bind_ok in E'. destruct E' as (st & E' & _). unfold make_stamp in E'.
  destruct (get_clipped_boxes _ _ _) as [[? ?] [? ?]]. destruct (get_clipped_boxes _ _ _) as [[? ?] [? ?]].
  destruct (_ <? 0); discriminate.
Qed.

Lemma cutout_key f iobj icut o s : Forall (fun o => 0 <= o_ncut o <= zlen (o_slots o)) (m_cat f) ->
  cutout_at f iobj icut o s -> In (o, icut, s) (cat_keys (m_cat f)).
Proof.
  intros Hwf (Ho & Hk & Hs). apply in_cat_keys'; [exact Hwf|]. split; [eapply zget_In; exact Ho|]. split; assumption.
Qed.

Lemma key_cutout f k : Forall (fun o => 0 <= o_ncut o <= zlen (o_slots o)) (m_cat f) ->
  In k (cat_keys (m_cat f)) -> exists iobj, cutout_at f iobj (k_cut k) (k_obj k) (k_slot k).
Proof.
  intros Hwf Hk. destruct k as [[o c] s]. apply in_cat_keys' in Hk; [|exact Hwf]. destruct Hk as (Ho & Hc & Hs).
  apply In_zget in Ho. destruct Ho as (i & Ho). exists i. exact (conj Ho (conj Hc Hs)).
Qed.

(** C18: a type without fill value can only be written when no cutout has such a file. *)
Lemma written_nofill k types rows psf input junk pjunk f :
  make_meds k types rows psf input junk pjunk = Ok f ->
  forall t iobj icut o s row, In t (map fst (m_ext f)) -> fill_value t = None ->
    cutout_at f iobj icut o s -> zget rows (s_file s) = Some row -> ~ has_file (ir_src row) t.
Proof.
  intros H t iobj icut o s row Ht Hv Hc Hrow Hf. apply make_meds_layout in H.
  destruct H as (tys & objs & nslots & total & cat0 & H1 & H2 & H3 & H4 & H5 & H6 & H7 & H8 & H9 & _).
  pose proof (tiles_le _ _ _ H7) as Ht0.
  destruct (write_types_len _ _ _ _ total _ _ (fun t m E => reserve_len tys total junk t m Ht0 E) H9) as [E _].
  rewrite E, reserve_fst in Ht. unfold write_types in H9.
  destruct (foldM_mem _ _ _ _ t H9 Ht) as (a & b & E1). destruct (ext_find a t) as [hdu|]; [|discriminate].
  apply bind_ok in E1. destruct E1 as (hdu' & W & _).
  assert (Hn : Forall (fun o => 0 <= o_ncut o <= zlen (o_slots o)) (m_cat f)) by (eapply laid_out_ncut_ok; exact H4).
  assert (HD : exists e, default_values t = Err e) by (destruct t; try discriminate Hv; eexists; reflexivity).
  destruct HD as (e & HD). rewrite HD in W. pose proof (write_cutouts_inv _ _ _ _ _ _ W) as [HR _].
  assert (Hz : zget (map ir_src rows) (s_file s) = Some (ir_src row)) by (rewrite zget_map, Hrow; reflexivity).
  pose proof (zget_Some_range _ _ _ Hz) as Hr. destruct (HR (s_file s) Hr) as (oo & Ho).
  assert (Hr' : read_image (k_unusable k) (ir_src row) t = Ok oo).
  { rewrite (proj2 (py_index_ok_nonneg _ _ _ (proj1 Hr)) Hz) in Ho. exact Ho. }
  destruct (read_image_has_file _ _ _ _ Hr' Hf) as (im & ->).
  eapply (write_cutouts_nofill e (m_cat f) _ _ _ _ Hn W (o, icut, s) im); [apply (cutout_key f iobj); assumption|exact Hr|].
  exact Ho.
Qed.

(** * C05 *)

(** Content determined by the inputs, whatever was there. *)
Lemma write_types_determined u cat srcs total ty1 ty2 e1 e2 e1' e2' t :
  cat_wf cat -> Forall source_ok srcs -> tiles 0 (cut_ranges cat) total ->
  (forall t m, ext_find e1 t = Some m -> zlen m = total) ->
  (forall t m, ext_find e2 t = Some m -> zlen m = total) ->
  write_types u cat srcs ty1 e1 = Ok e1' -> write_types u cat srcs ty2 e2 = Ok e2' ->
  In t ty1 -> In t ty2 ->
  (forall k, In k (cat_keys cat) -> exists src, zget srcs (s_file (k_slot k)) = Some src /\ has_file src t) ->
  fill_value t <> None ->
  ext_find e1' t = ext_find e2' t.
Proof.
  intros Hwf Hsrc Ht L1 L2 W1 W2 T1 T2 Hfile Hv. destruct (fill_value t) as [v|] eqn:Ev; [clear Hv|contradiction].
  destruct (write_types_content u cat srcs total Hwf Hsrc Ht ty1 _ _ L1 W1) as (A1 & A2 & A3 & A4 & A5).
  destruct (write_types_content u cat srcs total Hwf Hsrc Ht ty2 _ _ L2 W2) as (B1 & B2 & B3 & B4 & B5).
  destruct (A4 t T1) as (m1 & M1 & C1). destruct (B4 t T2) as (m2 & M2 & C2). rewrite M1, M2. f_equal.
  pose proof (A2 t m1 M1) as N1. pose proof (B2 t m2 M2) as N2.
  apply list_zget_ext; [lia|]. intros p Hp.
  destruct (tiles_cover _ _ _ p Ht) as (r & R1 & R2); [lia|].
  rewrite <- (cat_keys_ranges cat Hwf) in R1. apply in_map_iff in R1. destruct R1 as (k & <- & Hk).
  destruct (Hfile k Hk) as (src & S1 & S2). destruct (A5 t _ src T1 S1) as (oo & Hr).
  destruct (read_image_has_file _ _ _ _ Hr S2) as (im & ->).
  unfold k_range in R2; cbn [fst snd] in R2.
  replace p with (s_start (k_slot k) + (p - s_start (k_slot k))) by lia.
  rewrite (C1 v Ev k src im Hk S1 Hr) by lia. rewrite (C2 v Ev k src im Hk S1 Hr) by lia. reflexivity.
Qed.

(** The catalog does not depend on types nor on the reserved space. *)
Lemma same_cat k types1 types2 rows psf input j1 p1 j2 p2 f1 f2 :
  make_meds k types1 rows psf input j1 p1 = Ok f1 -> make_meds k types2 rows psf input j2 p2 = Ok f2 ->
  m_cat f1 = m_cat f2 /\ m_info f1 = m_info f2.
Proof.
  intros H1 H2. apply make_meds_inv in H1. apply make_meds_inv in H2.
  destruct H1 as (? & c1 & t1 & cat1 & tp1 & ? & ? & _ & _ & B1 & P1 & _ & _ & ->).
  destruct H2 as (? & c2 & t2 & cat2 & tp2 & ? & ? & _ & _ & B2 & P2 & _ & _ & ->).
  cbn [m_cat m_info]. split; [|reflexivity]. rewrite B1 in B2. inversion B2; subst. destruct psf.
  - rewrite P1 in P2. inversion P2. reflexivity.
  - destruct P1 as [-> _], P2 as [-> _]. reflexivity.
Qed.

Lemma determined k types1 types2 rows psf input j1 p1 j2 p2 f1 f2 :
  Forall (fun o => 1 <= o_box o) input -> Forall (fun r => source_ok (ir_src r)) rows ->
  make_meds k types1 rows psf input j1 p1 = Ok f1 -> make_meds k types2 rows psf input j2 p2 = Ok f2 ->
  forall t, In t (map fst (m_ext f1)) -> In t (map fst (m_ext f2)) ->
  (forall iobj icut o s row, cutout_at f1 iobj icut o s -> zget rows (s_file s) = Some row -> has_file (ir_src row) t) ->
  ext_find (m_ext f1) t = ext_find (m_ext f2) t.
Proof.
  intros Hb Hsrc M1 M2 t T1 T2 Hfile.
  pose proof (same_cat _ _ _ _ _ _ _ _ _ _ _ _ M1 M2) as [HC _].
  pose proof (written_file_wf _ _ _ _ _ _ _ _ Hb M1) as Hwf.
  pose proof (written_nofill _ _ _ _ _ _ _ _ M1) as HNF.
  pose proof (written_source_info _ _ _ _ _ _ _ _ M1) as HSI.
  destruct (written_tiles _ _ _ _ _ _ _ _ M1) as (tt1 & TT1 & TL1).
  destruct (written_tiles _ _ _ _ _ _ _ _ M2) as (tt2 & TT2 & TL2).
  assert (Hn : Forall (fun o => 0 <= o_ncut o <= zlen (o_slots o)) (m_cat f1))
    by (eapply Forall_impl; [|exact (proj1 Hwf)]; simpl; tauto).
  apply make_meds_layout in M1. apply make_meds_layout in M2.
  destruct M1 as (ty1 & ? & ? & tot1 & ? & _ & _ & _ & _ & _ & _ & I1 & _ & W1 & _).
  destruct M2 as (ty2 & ? & ? & tot2 & ? & _ & _ & _ & _ & _ & _ & I2 & _ & W2 & _).
  rewrite <- HC in I2, W2, TT2.
  assert (Htot : tot1 = tot2).
  { clear -I1 I2. revert I1 I2. generalize (cut_ranges (m_cat f1)) 0. intros l. induction l as [|[a b] l IH]; intros z A B.
    - inversion A; inversion B; subst; congruence.
    - inversion A; inversion B; subst. eapply IH; eassumption. }
  subst tot2.
  pose proof (tiles_le _ _ _ I1) as Ht0.
  pose proof (fun t m E => reserve_len ty1 tot1 j1 t m Ht0 E) as L1.
  pose proof (fun t m E => reserve_len ty2 tot1 j2 t m Ht0 E) as L2.
  pose proof (proj1 (write_types_len _ _ _ _ tot1 _ _ L1 W1)) as N1. rewrite N1, reserve_fst in T1.
  pose proof (proj1 (write_types_len _ _ _ _ tot1 _ _ L2 W2)) as N2. rewrite N2, reserve_fst in T2.
  destruct (fill_value t) as [v|] eqn:Ev.
  - refine (write_types_determined _ _ _ tot1 ty1 ty2 _ _ _ _ t _ _ I1 L1 L2 W1 W2 T1 T2 _ _);
      [apply cat_wf_weaken; exact (proj1 Hwf)|apply Forall_map; exact Hsrc| |congruence].
    intros kk Hkk. destruct (key_cutout f1 kk Hn Hkk) as (iobj & Hc).
    destruct (HSI _ _ _ _ Hc) as (row & R1 & _). exists (ir_src row). split; [rewrite zget_map, R1; reflexivity|].
    eapply Hfile; eassumption.
  - (* no cutout at all: both are empty *)
    assert (Hz : tot1 = 0).
    { destruct (Z.eq_dec tot1 0) as [|Hne]; [assumption|exfalso].
      destruct (tiles_cover _ _ _ 0 I1) as (r & R1 & _); [lia|].
      rewrite <- (cat_keys_ranges _ (cat_wf_weaken _ (proj1 Hwf))) in R1. apply in_map_iff in R1.
      destruct R1 as (kk & _ & Hkk). destruct (key_cutout f1 kk Hn Hkk) as (iobj & Hc).
      destruct (HSI _ _ _ _ Hc) as (row & R1 & _).
      refine (HNF t iobj (k_cut kk) (k_obj kk) (k_slot kk) row _ Ev Hc R1 (Hfile _ _ _ _ _ Hc R1)).
      rewrite N1, reserve_fst; exact T1. }
    assert (G : forall e m, ext_find e t = Some m -> zlen m = 0 -> ext_find e t = Some []).
    { intros e m E L. rewrite E. destruct m; [reflexivity|unfold zlen in L; simpl in L; lia]. }
    assert (EX : forall e ty, map fst e = ty -> In t ty -> exists m, ext_find e t = Some m).
    { intros e ty <- Hin. clear -Hin. induction e as [|[t0 m0] e IH]; [contradiction|]. simpl.
      destruct (ctype_eqb t0 t) eqn:E; [eexists; reflexivity|]. apply IH. destruct Hin as [<-|Ht]; [|exact Ht].
      simpl in E. rewrite ctype_eqb_refl in E. discriminate. }
    destruct (EX (m_ext f1) ty1) as (m1 & E1); [rewrite N1; apply reserve_fst|exact T1|].
    destruct (EX (m_ext f2) ty2) as (m2 & E2); [rewrite N2; apply reserve_fst|exact T2|].
    pose proof (proj2 (write_types_len _ _ _ _ tot1 _ _ L1 W1) t m1 E1) as Z1.
    pose proof (proj2 (write_types_len _ _ _ _ tot1 _ _ L2 W2) t m2 E2) as Z2.
    rewrite (G _ m1 E1), (G _ m2 E2) by lia. reflexivity.
Qed.

(** Success does not depend on the reserved space either. *)
Lemma write_at_sim {A} (m1 m2 : list A) k xs m1' : zlen m1 = zlen m2 -> write_at m1 k xs = Ok m1' ->
  exists m2', write_at m2 k xs = Ok m2' /\ zlen m1' = zlen m2'.
Proof.
  intros HL H. pose proof (write_at_ok _ _ _ _ H) as (W1 & W2 & W3 & _).
  destruct (write_at_in_range m2 k xs W1) as (m2' & W); [lia|]. exists m2'. split; [exact W|].
  apply write_at_ok in W. lia.
Qed.

Lemma write_cutouts_sim {A} (fill : res A) cat n read h1 h2 h1' : zlen h1 = zlen h2 ->
  write_cutouts fill cat n read h1 = Ok h1' ->
  exists h2', write_cutouts fill cat n read h2 = Ok h2' /\ zlen h1' = zlen h2'.
Proof.
  intros HL. unfold write_cutouts. apply (foldM_sim (fun a b : list A => zlen a = zlen b)); [|exact HL].
  intros a b f a' _ Hab E. apply bind_ok in E. destruct E as (o & Ho & E). rewrite Ho. cbn [bind].
  destruct o as [im|]; [|inversion E; subst; exists b; split; [reflexivity|exact Hab]].
  revert E. unfold write_file_cutouts. apply (foldM_sim (fun a b : list A => zlen a = zlen b)); [|exact Hab].
  intros a1 b1 ob a1' _ Hab1. apply (foldM_sim (fun a b : list A => zlen a = zlen b)); [|exact Hab1].
  intros a2 b2 ic a2' _ Hab2 E. apply bind_ok in E. destruct E as (s & Hs & E). rewrite Hs. cbn [bind].
  destruct (s_file s =? f); [|inversion E; subst; exists b2; split; [reflexivity|exact Hab2]].
  unfold write_cutout in *. apply bind_ok in E. destruct E as (s' & Hs' & E). rewrite Hs'. cbn [bind].
  apply bind_ok in E. destruct E as (st & Hst & E). rewrite Hst. cbn [bind]. eapply write_at_sim; eassumption.
Qed.

Definition ext_sim (e1 e2 : list (ctype * list Q)) : Prop :=
  Forall2 (fun a b => fst a = fst b /\ zlen (snd a) = zlen (snd b)) e1 e2.

Lemma ext_sim_find e1 e2 t m1 : ext_sim e1 e2 -> ext_find e1 t = Some m1 ->
  exists m2, ext_find e2 t = Some m2 /\ zlen m1 = zlen m2.
Proof.
  induction 1 as [|[a1 x1] [a2 x2] e1 e2 [H1 H2] H IH]; simpl in *; [discriminate|]. subst a2.
  destruct (ctype_eqb a1 t); [|exact IH]. intros E; inversion E; subst. exists x2; auto.
Qed.

Lemma ext_sim_set e1 e2 t m1 m2 : ext_sim e1 e2 -> zlen m1 = zlen m2 -> ext_sim (ext_set e1 t m1) (ext_set e2 t m2).
Proof.
  intros H HL. induction H as [|[a1 x1] [a2 x2] e1 e2 [H1 H2] H IH]; simpl in *; [constructor|]. subst a2.
  destruct (ctype_eqb a1 t); constructor; simpl; auto.
Qed.

Lemma write_types_sim u cat srcs types e1 e2 e1' : ext_sim e1 e2 ->
  write_types u cat srcs types e1 = Ok e1' ->
  exists e2', write_types u cat srcs types e2 = Ok e2' /\ ext_sim e1' e2'.
Proof.
  intros H. unfold write_types. apply (foldM_sim ext_sim); [|exact H].
  intros a b t a' _ Hab E. destruct (ext_find a t) as [m1|] eqn:E1; [|discriminate].
  destruct (ext_sim_find _ _ _ _ Hab E1) as (m2 & -> & HL).
  apply bind_ok in E. destruct E as (h & W & E). inversion E; subst.
  destruct (write_cutouts_sim _ _ _ _ _ _ _ HL W) as (h2 & W2 & HL2).
  eexists. rewrite W2. split; [reflexivity|]. apply ext_sim_set; assumption.
Qed.

Lemma reserve_sim tys total j1 j2 : ext_sim (reserve tys total j1) (reserve tys total j2).
Proof.
  unfold reserve, ext_sim. induction tys as [|t tys IH]; simpl; constructor; [|exact IH].
  simpl. split; [reflexivity|]. rewrite !zlen_map. reflexivity.
Qed.

Lemma put_psf_sim s im (h1 h2 h1' : list Q) : zlen h1 = zlen h2 -> put_psf s im h1 = Ok h1' ->
  exists h2', put_psf s im h2 = Ok h2' /\ zlen h1' = zlen h2'.
Proof. unfold put_psf. intros HL. destruct (_ && _); [apply write_at_sim; exact HL|discriminate]. Qed.

Lemma write_psf_serial_sim c pc psfs cat h1 h2 h1' : zlen h1 = zlen h2 ->
  write_psf_serial c pc psfs cat h1 = Ok h1' ->
  exists h2', write_psf_serial c pc psfs cat h2 = Ok h2' /\ zlen h1' = zlen h2'.
Proof.
  intros HL. unfold write_psf_serial. apply (foldM_sim (fun a b : list Q => zlen a = zlen b)); [|exact HL].
  intros a b o a' _ Hab. apply (foldM_sim (fun a b : list Q => zlen a = zlen b)); [|exact Hab].
  intros a2 b2 ic a2' _ Hab2 E. apply bind_ok in E. destruct E as (s & Hs & E). rewrite Hs. cbn [bind].
  apply bind_ok in E. destruct E as (im & Him & E). rewrite Him. cbn [bind]. eapply put_psf_sim; eassumption.
Qed.

Lemma write_psf_joblib_sim n c pc psfs cat h1 h2 h1' : zlen h1 = zlen h2 ->
  write_psf_joblib n c pc psfs cat h1 = Ok h1' ->
  exists h2', write_psf_joblib n c pc psfs cat h2 = Ok h2' /\ zlen h1' = zlen h2'.
Proof.
  intros HL. unfold write_psf_joblib.
  set (jobs := zrange (if zlen cat / n * n <? zlen cat then zlen cat / n + 1 else zlen cat / n)).
  destruct (mapM _ jobs) as [outs|]; cbn [bind]; [|discriminate].
  apply (foldM_sim (fun a b : list Q => zlen a = zlen b)); [|exact HL].
  intros a b jo a' _ Hab E. unfold psf_write_job in *. apply bind_ok in E. destruct E as (st & E & E').
  inversion E'; subst; clear E'.
  assert (G : exists st2, foldM (fun (st : list Q * Z) o =>
     foldM (fun (st : list Q * Z) icut =>
      let '(hdu, loc) := st in
      let* s := get_slot o icut in
      let* psfim := py_index (snd jo) loc in
      let* hdu' := put_psf s psfim hdu in
      Ok (hdu', loc + 1)) (zrange (o_ncut o)) st) (job_objs cat n (fst jo)) (b, 0) = Ok st2 /\
      (zlen (fst st) = zlen (fst st2) /\ snd st = snd st2)).
  { revert E. apply (foldM_sim (fun a b : list Q * Z => zlen (fst a) = zlen (fst b) /\ snd a = snd b));
      [|simpl; auto].
    intros a1 b1 o a1' _ Hab1. apply (foldM_sim (fun a b : list Q * Z => zlen (fst a) = zlen (fst b) /\ snd a = snd b));
      [|exact Hab1].
    intros [a2 l2] [b2 l2'] ic a2' _ [H1 H2] E. simpl in H1, H2. subst l2'.
    apply bind_ok in E. destruct E as (s & Hs & E). rewrite Hs. cbn [bind].
    apply bind_ok in E. destruct E as (im & Him & E). rewrite Him. cbn [bind].
    apply bind_ok in E. destruct E as (h & Hh & E). inversion E; subst.
    destruct (put_psf_sim _ _ _ b2 _ H1 Hh) as (h2' & -> & HL2). cbn [bind].
    eexists; split; [reflexivity|]. simpl. auto. }
  destruct G as (st2 & -> & G1 & G2). cbn [bind]. eexists; split; [reflexivity|exact G1].
Qed.

Lemma make_meds_intro k types rows psf input junk pjunk tys cat0 total cat total_psf ext p :
    types_of types tys ->
    (match psf with Some ps => zlen ps = zlen rows | None => True end) ->
    build_layout (k_l k) (map ir_image rows) (init_cat (k_l k) (map ir_image rows) input) = Ok (cat0, total) ->
    (match psf with
     | None => cat = cat0 /\ total_psf = 0
     | Some ps => set_psf_layout (k_l k) (k_p k) ps cat0 = Ok (cat, total_psf) end) ->
    write_types (k_unusable k) cat (map ir_src rows) tys (reserve tys total junk) = Ok ext ->
    (match psf with
     | None => p = None
     | Some ps => exists h, p = Some h /\
        (if k_joblib k then write_psf_joblib (k_njob k) (k_l k) (k_p k) ps cat (map pjunk (zrange total_psf))
         else write_psf_serial (k_l k) (k_p k) ps cat (map pjunk (zrange total_psf))) = Ok h end) ->
  make_meds k types rows psf input junk pjunk =
  Ok (mkMeds cat (k_number_col k) (match psf with Some _ => PsfRCCut | None => PsfNone end)
             (map ir_info rows) ext p).
Proof.
  intros (names & HN & HT) H2 HB HP HW HQ. unfold make_meds, new_maker, write, full_layout, write_data.
  rewrite HN. cbn [bind]. rewrite HT. cbn [bind]. destruct psf as [ps|].
  - rewrite H2, Z.eqb_refl. cbn [bind mk_conf mk_rows mk_psf mk_cat k_l k_p k_unusable k_types k_joblib k_njob k_number_col].
    rewrite HB. cbn [bind fst snd]. rewrite HP. cbn [bind fst snd]. rewrite HW. cbn [bind].
    destruct HQ as (h & -> & HQ). rewrite HQ. reflexivity.
  - cbn [bind mk_conf mk_rows mk_psf mk_cat k_l k_p k_unusable k_types k_joblib k_njob k_number_col].
    rewrite HB. cbn [bind fst snd]. destruct HP as [-> ->]. rewrite HW. cbn [bind snd]. subst p. reflexivity.
Qed.

Lemma junk_success k types rows psf input j1 p1 j2 p2 f1 :
  make_meds k types rows psf input j1 p1 = Ok f1 ->
  exists f2, make_meds k types rows psf input j2 p2 = Ok f2.
Proof.
  intros H. apply make_meds_inv in H.
  destruct H as (tys & cat0 & total & cat & tp & ext & p & H1 & H2 & H3 & H4 & H5 & H6 & ->).
  destruct (write_types_sim _ _ _ _ _ _ _ (reserve_sim tys total j1 j2) H5) as (ext2 & W2 & _).
  destruct psf as [ps|].
  - destruct H6 as (h & -> & H6).
    assert (HL : zlen (map p1 (zrange tp)) = zlen (map p2 (zrange tp))) by (rewrite !zlen_map; reflexivity).
    assert (G : exists h2, (if k_joblib k then write_psf_joblib (k_njob k) (k_l k) (k_p k) ps cat (map p2 (zrange tp))
         else write_psf_serial (k_l k) (k_p k) ps cat (map p2 (zrange tp))) = Ok h2).
    { destruct (k_joblib k).
      - destruct (write_psf_joblib_sim _ _ _ _ _ _ _ _ HL H6) as (h2 & A & _). exists h2; exact A.
      - destruct (write_psf_serial_sim _ _ _ _ _ _ _ HL H6) as (h2 & A & _). exists h2; exact A. }
    destruct G as (h2 & G). eexists. eapply make_meds_intro; try eassumption. exists h2. split; [reflexivity|exact G].
  - eexists. eapply make_meds_intro; eassumption.
Qed.
