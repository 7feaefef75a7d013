(** Lemmas on catalogs used again and on the metadata of the file of coadds. *)
From Coq Require Import String Lia ZifyBool.
From Verif Require Import Base Img Types MakerLayout MakerFile Meta SpecMeta CatFile SpecLayout.
From Verif Require Import BaseLemmas LayoutLemmas StartLemmas BuildLemmas MetaLemmas CatLemmas.
Open Scope Z_scope.

(** * Counts *)
Definition same_place (o o' : obj) : Prop :=
  o_ra o' = o_ra o /\ o_dec o' = o_dec o /\ o_color o' = o_color o /\ o_wcs_color o' = o_wcs_color o /\ o_id o' = o_id o.
Definition counted_up (c : lconf) (fs : list (Z * image)) (o o' : obj) : Prop :=
  same_place o o' /\ zlen (o_slots o') = zlen (o_slots o) /\
  o_ncut o' = o_ncut o + zlen (filter (accf c o) fs) /\ 0 <= o_ncut o' <= zlen (o_slots o').

Lemma acc_same c f im o o' : same_place o o' -> acc c f im o' = acc c f im o.
Proof.
  intros (A & B & C & D & _).
  assert (E : color_arg c f o' = color_arg c f o) by (unfold color_arg, obj_color; rewrite C, D; reflexivity).
  unfold acc, in_b, pos_of, bounds_of. rewrite E, A, B. reflexivity.
Qed.

Lemma add_cut_ok c f im o : 0 <= o_ncut o < zlen (o_slots o) ->
  same_place o (add_cut c f im o) /\ zlen (o_slots (add_cut c f im o)) = zlen (o_slots o) /\ o_ncut (add_cut c f im o) = o_ncut o + 1.
Proof.
  intros H. unfold add_cut. destruct (nth_error (o_slots o) (Z.to_nat (o_ncut o))) eqn:E.
  - split; [repeat split|]. split; [|reflexivity]. cbn [o_slots set_slots set_ncut]. unfold zlen. rewrite upd_length. reflexivity.
  - exfalso. apply nth_error_None in E. unfold zlen in H. lia.
Qed.

Lemma counted_trans c f im done o0 o : counted_up c done o0 o -> (acc c f im o && (zlen (o_slots o) <=? o_ncut o)) = false ->
  counted_up c (done ++ [(f, im)]) o0 (if acc c f im o then add_cut c f im o else o).
Proof.
  intros (P & L & N & B) K. rewrite (acc_same c f im o0 o P) in *. unfold counted_up. rewrite filter_app. cbn [filter]. change (accf c o0 (f, im)) with (acc c f im o0).
  destruct (acc c f im o0); cbn [andb] in K.
  - destruct (add_cut_ok c f im o) as (P' & L' & N'); [lia|]. split.
    + unfold same_place in *. intuition congruence.
    + rewrite zlen_app. change (zlen [(f, im)]) with 1. lia.
  - rewrite app_nil_r. auto.
Qed.

Lemma files_counted c fs : forall done cat0 cat cat', Forall2 (counted_up c done) cat0 cat -> foldM (layout_file c) fs cat = Ok cat' ->
  Forall2 (counted_up c (done ++ fs)) cat0 cat'.
Proof.
  induction fs as [|[f im] fs IH]; intros done cat0 cat cat' F H.
  - cbn in H. apply ok_inj in H. subst. rewrite app_nil_r. exact F.
  - cbn [foldM] in H. rewrite layout_file_eq in H.
    2:{ intros o I _. destruct (In_nth_error _ _ I) as (n & X). clear -F X. revert n X. induction F as [|a b l l' K F IHF]; intros [|n] X; cbn in X; try discriminate.
        - inversion X; subst. destruct K as (_ & _ & _ & K). lia.
        - eauto. }
    cbn zeta in H.
    match type of H with context [if ?a then Err ValueError else _] => destruct a; [discriminate|] end.
    match type of H with context [if ?a then Err MEDSCreationError else _] => destruct a; [discriminate|] end.
    destruct (existsb _ cat) eqn:E; [discriminate|]. cbn [bind] in H.
    replace (done ++ (f, im) :: fs) with ((done ++ [(f, im)]) ++ fs) by (rewrite <- app_assoc; reflexivity).
    eapply IH; [|exact H]. clear -F E. induction F as [|a b l l' K F IHF]; [constructor|]. cbn [existsb] in E. apply Bool.orb_false_iff in E. destruct E as (E1 & E2).
    cbn [map]. constructor; [apply counted_trans; assumption|apply IHF; exact E2].
Qed.

Lemma Forall2_map_r {A B C} (R : A -> B -> Prop) (R' : A -> C -> Prop) (g : B -> C) l l' : (forall a b, R a b -> R' a (g b)) -> Forall2 R l l' -> Forall2 R' l (map g l').
Proof. intros H. induction 1; cbn; constructor; auto. Qed.

Definition count_row (c : lconf) (fs : list (Z * image)) (o o' : obj) : Prop :=
  o_id o' = o_id o /\ o_ncut o' = o_ncut o + zlen (filter (accf c o) fs).

Lemma build_counted c images cat cat' n : first_image_is_coadd c && trim_to_coadd c = false ->
  Forall (fun o => 0 <= o_ncut o <= zlen (o_slots o)) cat -> build_layout c images cat = Ok (cat', n) ->
  Forall2 (count_row c (files images)) cat cat'.
Proof.
  intros T W H. unfold build_layout in H. rewrite trim_cat_eq, T in H. cbn [bind] in H.
  apply bind_ok in H. destruct H as (cat1 & H1 & H). apply bind_ok in H. destruct H as (cat2 & H2 & H3).
  assert (F : Forall2 (counted_up c (files images)) cat cat1).
  { apply (files_counted c (files images) [] cat cat); [|exact H1]. clear -W. induction W as [|o l K W IH]; constructor; auto.
    split; [repeat split|]. split; [reflexivity|]. cbn. lia. }
  assert (NE : cat1 <> []) by (intros ->; discriminate).
  rewrite make_resized_eq in H2 by exact NE. apply ok_inj in H2. subst cat2.
  assert (F2 : Forall2 (fun o o' => count_row c (files images) o o' /\ 0 <= o_ncut o' <= zlen (o_slots o')) cat
                 (map (fun o => set_slots o (firstn (Z.to_nat (nslots_of cat1)) (o_slots o))) cat1)).
  { assert (IN : forall o, In o cat1 -> o_ncut o <= nslots_of cat1) by (intros; apply nslots_ge; assumption).
    revert IN. generalize (nslots_of cat1). intros m IN. clear -F IN. induction F as [|a b l l' K F IH]; [constructor|]. cbn [map].
    constructor.
    - destruct K as ((_ & _ & _ & _ & I) & L & N & B). split; [split; assumption|]. cbn [o_ncut o_slots set_slots]. split; [lia|].
      assert (Y : forall m, o_ncut b <= m -> o_ncut b <= zlen (firstn (Z.to_nat m) (o_slots b))).
      { intros m0 M. unfold zlen in *. rewrite firstn_length. lia. }
      apply Y. apply IN. left. reflexivity.
    - apply IH. intros o O. apply IN. right. exact O. }
  revert H3 F2. generalize (map (fun o => set_slots o (firstn (Z.to_nat (nslots_of cat1)) (o_slots o))) cat1). intros l H3 F2.
  rewrite set_start_rows_eq in H3.
  2:{ clear -F2. induction F2 as [|a b l0 l' K F IH]; constructor; [exact (proj2 K)|exact IH]. }
  apply ok_inj in H3. assert (E : cat' = started_cat 0 l) by congruence. subst cat'. clear -F2. cut (forall row, Forall2 (count_row c (files images)) cat (started_cat row l)); [intros X; apply X|].
  induction F2 as [|a b l0 l' (K & _) F IH]; intros row; cbn [started_cat]; constructor; [exact K|apply IH].
Qed.

Lemma force_even_rows cat : force_box_even cat = map (fun o => if negb (o_box o mod 2 =? 0) then set_box o (o_box o + 1) else o) cat.
Proof. reflexivity. Qed.

Lemma reused_rows c images psf cat d : reused_obj_data c images psf cat = Ok d ->
  Forall2 (fun o o' => same_place o o' /\ o_ncut o' = o_ncut o /\ zlen (o_slots o') = zlen (o_slots o)) cat d.
Proof.
  unfold reused_obj_data. revert d. induction cat as [|o cat IH]; intros d H; cbn [mapM] in H; [apply ok_inj in H; subst; constructor|].
  apply bind_ok in H. destruct H as (o' & H1 & H). apply bind_ok in H. destruct H as (d' & H2 & H). apply ok_inj in H. subst d.
  constructor; [|apply IH; exact H2]. destruct (zlen (o_slots o) =? _); [|discriminate]. apply ok_inj in H1. subst o'.
  destruct psf; (split; [repeat split|split; [reflexivity|]]); [reflexivity|]. cbn [o_slots set_slots]. unfold zlen. rewrite map_length. reflexivity.
Qed.

Lemma remake_counts k types rows cat junk pjunk g :
  first_image_is_coadd (k_l k) && trim_to_coadd (k_l k) = false ->
  Forall (fun o => 0 <= o_ncut o <= zlen (o_slots o)) cat ->
  remake_meds k types rows None cat junk pjunk = Ok g ->
  Forall2 (fun o o' => o_id o' = o_id o /\
    exists hits, NoDup hits /\ (forall f, In f hits <-> exists im, zget (map ir_image rows) f = Some im /\ accepted (k_l k) f im o) /\
      o_ncut o' = o_ncut o + zlen hits) cat (m_cat g).
Proof.
  intros T W H. unfold remake_meds, new_maker in H. apply bind_ok in H. destruct H as (m & M & H).
  apply bind_ok in M. destruct M as (nm & _ & M). apply bind_ok in M. destruct M as (tys & _ & M). cbn [bind] in M. apply ok_inj in M. subst m. cbn [mk_conf mk_rows mk_psf] in H.
  apply bind_ok in H. destruct H as (d & D & H). apply bind_ok in H. destruct H as ((m' & f') & WR & H). apply ok_inj in H. subst g. cbn [snd].
  unfold write, full_layout in WR. cbn [mk_conf mk_rows mk_psf mk_cat k_l k_p] in WR. apply bind_ok in WR. destruct WR as ([[cat2 tot] tp] & L & WR).
  apply bind_ok in L. destruct L as ([cat3 n3] & B & L). cbn [fst snd] in L. apply ok_inj in L. assert (cat3 = cat2) by congruence. subst cat3. clear L.
  apply bind_ok in WR. destruct WR as (f2 & WD & WR). apply ok_inj in WR. assert (f2 = f') by congruence. subst f2. clear WR.
  unfold write_data in WD. apply bind_ok in WD. destruct WD as (ext & _ & WD). cbn [bind] in WD. apply ok_inj in WD. subst f'. cbn [m_cat].
  pose proof (reused_rows _ _ _ _ _ D) as RR.
  assert (R2 : Forall2 (fun o o' => same_place o o' /\ o_ncut o' = o_ncut o /\ zlen (o_slots o') = zlen (o_slots o)) cat (force_box_even d)).
  { rewrite force_even_rows. eapply Forall2_map_r; [|exact RR]. intros a b K. destruct (negb _); exact K. }
  apply build_counted in B; [|exact T|].
  - clear -R2 B. revert cat2 B. induction R2 as [|a b l l' (P & N & _) F IH]; intros cat2 B; inversion B as [|x y lx ly (I & C) Y]; subst; constructor; [|apply IH; exact Y].
    split; [destruct P as (_ & _ & _ & _ & P); congruence|].
    exists (map fst (filter (accf (k_l k) b) (files (map ir_image rows)))). split; [|split].
    + assert (S : NoDup (map fst (files (map ir_image rows)))) by (rewrite map_fst_files; apply zrange_NoDup).
      revert S. generalize (files (map ir_image rows)). intros fs. induction fs as [|x fs IHf]; cbn [map filter]; intros S; [constructor|].
      inversion S as [|? ? S1 S2]; subst. destruct (accf (k_l k) b x); [|auto]. cbn [map]. constructor; [|auto].
      intros X. apply S1. apply in_map_iff in X. destruct X as (z & Z1 & Z2). apply in_map_iff. exists z. split; [exact Z1|]. apply filter_In in Z2. exact (proj1 Z2).
    + intros f. rewrite in_map_iff. split.
      * intros ((f' & im) & E & J). cbn in E. subst f'. apply filter_In in J. destruct J as (J & A). exists im. apply In_files in J. split; [exact J|].
        apply acc_accepted. unfold accf in A. cbn [fst snd] in A. rewrite (acc_same _ _ _ _ _ P) in A. exact A.
      * intros (im & J & A). exists (f, im). split; [reflexivity|]. apply filter_In. split; [apply In_files; exact J|].
        unfold accf. cbn [fst snd]. rewrite (acc_same _ _ _ _ _ P). apply acc_accepted. exact A.
    + unfold zlen in *. rewrite map_length. lia.
  - clear -R2 W. induction R2 as [|a b l l' (P & N & Z) F IH]; [constructor|]. inversion W; subst. constructor; [lia|auto].
Qed.

Lemma remake_width k types rows psf cat junk pjunk o g : In o cat -> zlen (o_slots o) <> nmax_of (k_l k) (map ir_image rows) ->
  remake_meds k types rows psf cat junk pjunk <> Ok g.
Proof.
  intros I N H. unfold remake_meds in H. apply bind_ok in H. destruct H as (m & _ & H). apply bind_ok in H. destruct H as (d & D & _).
  unfold reused_obj_data in D. revert d D. induction cat as [|x cat IH]; [contradiction|]. intros d D. cbn [mapM] in D. apply bind_ok in D. destruct D as (y & Y & D).
  apply bind_ok in D. destruct D as (d' & D' & _). destruct I as [-> |I]; [|eapply IH; eassumption].
  destruct (zlen (o_slots o) =? _) eqn:E; [lia|discriminate].
Qed.

(** * Metadata of the file of coadds *)
Lemma coadd_meta_fails vs t n : n <> 1 -> set_coadd_meta vs t n = Err ValueError.
Proof.
  intros N. unfold set_coadd_meta, zeros_table. destruct (nodup_names _); [|reflexivity]. cbn [bind]. destruct (n =? 1) eqn:E; [lia|reflexivity].
Qed.

Lemma coadd_meta_ok vs t : NoDup (names t) ->
  exists m, set_coadd_meta vs t 1 = Ok m /\
    (forall k, In k (names m) <-> In k (names t) \/ In k (map fst (version_columns vs))) /\
    (forall k v, column t k v -> ~ In k (map fst (version_columns vs)) -> column m k v) /\
    (forall k v, In (k, v) (version_columns vs) -> column m k [v]) /\
    NoDup (names m).
Proof.
  intros ND. unfold set_coadd_meta, zeros_table.
  change (map fst (version_columns vs)) with VERSION_NAMES.
  assert (NV : NoDup VERSION_NAMES) by (apply nodup_names_iff; reflexivity).
  set (ns := VERSION_NAMES ++ filter (fun n => negb (mem_str n VERSION_NAMES)) (names t)).
  assert (N : NoDup ns).
  { unfold ns. apply nodup_app_intro; [exact NV|apply NoDup_filter; exact ND|]. intros x X Y. apply filter_In in Y. destruct Y as (_ & Y).
    apply mem_str_In in X. rewrite X in Y. discriminate. }
  assert (E : nodup_names ns = true) by (apply nodup_names_iff; exact N). rewrite E. cbn [bind Z.eqb Pos.eqb negb].
  set (z := map (fun c => (c, repeat ""%string (Z.to_nat 1))) ns).
  assert (Z0 : names z = ns) by (unfold z, names; rewrite map_map; apply map_id).
  set (t1 := fold_left (fun m c => set_col m (fst c) (snd c)) t z).
  assert (N1 : names t1 = ns) by (unfold t1; rewrite fold_set_names; exact Z0).
  assert (C1 : forall k v, column t k v -> column t1 k v).
  { intros k v H. apply fold_set_ok; [exact ND| |exact H]. intros n I. rewrite Z0. unfold ns. apply in_or_app.
    destruct (mem_str n VERSION_NAMES) eqn:M; [left; apply mem_str_In; exact M|right; apply filter_In; split; [exact I|rewrite M; reflexivity]]. }
  eexists. split; [reflexivity|]. split; [|split; [|split]].
  - intros k. rewrite !set_col_names, N1. unfold ns. rewrite in_app_iff, filter_In. destruct (mem_str k VERSION_NAMES) eqn:M.
    + apply mem_str_In in M. tauto.
    + apply mem_str_false in M. cbn [negb]. tauto.
  - intros k v H K. unfold column in *. repeat (apply set_col_other; [intros ->; apply K; cbn; tauto|]). apply C1. exact H.
  - intros k v H. assert (IN : forall n, In n VERSION_NAMES -> In n ns) by (intros n X; unfold ns; apply in_or_app; left; exact X).
    unfold column. cbn [version_columns In] in H.
    repeat (destruct H as [H|H]; [injection H as <- <-; repeat first [apply set_col_same; rewrite ?set_col_names, N1; apply IN; cbn; tauto | apply set_col_other; [discriminate|]] |]). destruct H.
  - rewrite !set_col_names, N1. exact N.
Qed.

Lemma scalar_find {A} (t : CatCols.ctable A) n c : CatCols.find_col t n = Some c -> CatCols.c_width c = None -> SpecCat.scalar t n.
Proof.
  induction t as [|x t IH]; cbn [CatCols.find_col]; [discriminate|]. intros H W. destruct (String.eqb (CatCols.c_name x) n) eqn:E.
  - apply String.eqb_eq in E. injection H as ->. exists c. split; [left; reflexivity|]. split; assumption.
  - destruct (IH H W) as (c' & I & K). exists c'. split; [right; exact I|exact K].
Qed.
