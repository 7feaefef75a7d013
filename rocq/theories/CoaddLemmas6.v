(** The file of coadds as written by [write_coadds]. *)
From Coq Require Import Lia ZifyBool ZifyNat.
From Verif Require Import Base BaseLemmas Img ImgLemmas Types Reader BoundsM MakerLayout MakerWrite Composite Coadd
  SpecTiles SpecFile SpecComposite SpecCoadd ReadLemmas FileLemmas CoaddLemmas CoaddLemmas2 CoaddLemmas3 CoaddLemmas5.
Open Scope Z_scope.

Lemma reserved_eq f : zsum (map (fun o => o_box o ^ 2) (m_cat f)) = reserved_pixels f.
Proof. unfold reserved_pixels, zsum. induction (m_cat f) as [|o l IH]; cbn [map fold_right]; [reflexivity|]. rewrite IH. ring. Qed.
Lemma reserved_nonneg f : 0 <= reserved_pixels f.
Proof. unfold reserved_pixels. induction (m_cat f) as [|o l IH]; cbn [map fold_right]; [lia|]. nia. Qed.

Lemma zmax_ge l m : zmax l = Ok m -> forall x, In x l -> x <= m.
Proof.
  destruct l as [|a l]; [discriminate|]. cbn [zmax]. intros H; inversion H; subst; clear H.
  assert (G : forall l a, a <= fold_left Z.max l a /\ forall x, In x l -> x <= fold_left Z.max l a).
  { clear. induction l as [|y l IH]; intros a; cbn [fold_left]; [split; [lia|intros x []]|]. destruct (IH (Z.max a y)) as (G1 & G2).
    split; [lia|]. intros x [<-|X]; [lia|apply G2; exact X]. }
  destruct (G l a) as (G1 & G2). intros x [<-|X]; [exact G1|apply G2; exact X].
Qed.

Lemma obj_data_ok f rows : coadd_obj_data f = Ok rows ->
  exists n, Forall (fun o => o_ncut o - 1 <= n) (m_cat f) /\ 2 <= n /\
  Forall2 (fun o r => o_box (cr_obj r) = o_box o /\ o_ncut (cr_obj r) = 0 /\ cr_ncoadd r = 0 /\ cr_coadd_flags r = 0 /\ zlen (o_slots (cr_obj r)) = 2 /\
    cr_orig_ncutout r = o_ncut o - 1 /\ cr_orig_flags r = map (fun _ => DEFVAL) (zrange n) /\ o_id (cr_obj r) = o_id o /\ o_number (cr_obj r) = o_number o) (m_cat f) rows.
Proof.
  intros H. unfold coadd_obj_data in H. apply bind_ok in H. destruct H as (m & M & H). dif_in H E; [discriminate|].
  exists (Z.max (m - 1) 2). split.
  - apply Forall_forall. intros o O. assert (o_ncut o <= m) by (eapply zmax_ge; [exact M|apply in_map; exact O]). lia.
  - split; [lia|]. apply mapM_ok_Forall2 in H. clear -H. induction H as [|o r l l' E F IH]; constructor; [|exact IH].
    unfold coadd_row in E. apply bind_ok in E. destruct E as (s & _ & E). inversion E; subst. repeat split.
Qed.
Lemma obj_data_total f : m_cat f <> [] -> m_number_col f = true -> Forall (fun o => o_slots o <> []) (m_cat f) -> exists rows, coadd_obj_data f = Ok rows.
Proof.
  intros H1 H2 H3. unfold coadd_obj_data. destruct (m_cat f) as [|o l] eqn:E; [congruence|]. cbn [map zmax bind]. rewrite H2. cbn [negb].
  set (n := Z.max _ 2). clearbody n. rewrite <- E in H3 |- *. clear E H1. induction H3 as [|x xs X XS IH]; [eexists; reflexivity|]. cbn [mapM]. destruct IH as (rows & ->).
  unfold coadd_row, get_slot. destruct (o_slots x) as [|s sl]; [congruence|]. cbn [py_index Z.ltb Z.compare zget Z.to_nat nth_error bind]. eexists; reflexivity.
Qed.

Definition lo_of (rg : option (Z * Z)) : Z := match rg with Some (a, _) => a | None => 0 end.
Definition hi_of (f : medsfile) (rg : option (Z * Z)) : Z := match rg with Some (_, b) => b | None => zlen (m_cat f) end.
Lemma asked_iff f rg j : asked f rg j <-> lo_of rg <= j < hi_of f rg.
Proof. destruct rg as [[x y]|]; reflexivity. Qed.

Lemma weaken_rows f rows n :
  Forall2 (fun o r => o_box (cr_obj r) = o_box o /\ o_ncut (cr_obj r) = 0 /\ cr_ncoadd r = 0 /\ cr_coadd_flags r = 0 /\ zlen (o_slots (cr_obj r)) = 2 /\
    cr_orig_ncutout r = o_ncut o - 1 /\ cr_orig_flags r = map (fun _ => DEFVAL) (zrange n) /\ o_id (cr_obj r) = o_id o /\ o_number (cr_obj r) = o_number o) (m_cat f) rows ->
  Forall2 (fun o r => o_box (cr_obj r) = o_box o /\ o_ncut (cr_obj r) = 0 /\ cr_ncoadd r = 0 /\ cr_coadd_flags r = 0 /\ zlen (o_slots (cr_obj r)) = 2) (m_cat f) rows.
Proof. induction 1 as [|o r l l' H F IH]; constructor; [tauto|exact IH]. Qed.

Lemma Forall2_zget {A B} (R : A -> B -> Prop) l l' : Forall2 R l l' -> forall j x, zget l' j = Some x -> exists a, zget l j = Some a /\ R a x.
Proof.
  intros F j x. unfold zget. destruct (j <? 0); [discriminate|]. generalize (Z.to_nat j). induction F as [|u v l l' H F IH]; intros [|n] X; cbn [nth_error] in *; try discriminate.
  - inversion X; subst. exists u. split; [reflexivity|exact H].
  - apply IH. exact X.
Qed.

Lemma write_coadds_inv f ct tp junk pjunk coadder rg rows f' : stamp_shapes f coadder -> 0 <= lo_of rg -> 0 <= tp ->
  write_coadds f ct tp junk pjunk coadder rg = Ok (rows, f') ->
  exists rows0 st, coadd_obj_data f = Ok rows0 /\
    Inv f (add_types ct) coadder (lo_of rg) (hi_of f rg) rows0 (reserved_pixels f) tp (Z.max (lo_of rg) (hi_of f rg)) st /\
    rows = ws_rows st /\ f' = mkMeds (map cr_obj (ws_rows st)) true PsfBoxObj (firstn 1 (m_info f)) (ws_ext st) (Some (ws_psf st)).
Proof.
  intros HS L P H. unfold write_coadds in H. apply bind_ok in H. destruct H as (rows0 & RD & H).
  assert (RG : match rg with Some r => r | None => (0, zlen (m_cat f)) end = (lo_of rg, hi_of f rg)) by (destruct rg as [[x y]|]; reflexivity).
  rewrite RG in H. apply bind_ok in H. destruct H as (st & F & H). inversion H; subst; clear H. exists rows0, st. split; [exact RD|]. split; [|split; reflexivity].
  destruct (obj_data_ok _ _ RD) as (n & _ & _ & R0). apply weaken_rows in R0.
  rewrite reserved_eq in F. unfold zrange2 in F.
  assert (NN : zrange (hi_of f rg - lo_of rg) = zrange (Z.of_nat (Z.to_nat (hi_of f rg - lo_of rg)))) by (unfold zrange; rewrite Nat2Z.id; reflexivity). rewrite NN in F.
  apply fold_inv with (f := f) (b := hi_of f rg) in F; try assumption; [|apply reserved_nonneg|lia].
  replace (Z.max (lo_of rg) (hi_of f rg)) with (lo_of rg + Z.of_nat (Z.to_nat (hi_of f rg - lo_of rg))) by lia. exact F.
Qed.

Lemma write_coadds_ok f ct tp junk pjunk coadder rg rows f' : stamp_shapes f coadder -> 0 <= lo_of rg -> 0 <= tp ->
  write_coadds f ct tp junk pjunk coadder rg = Ok (rows, f') ->
  m_cat f' = map cr_obj rows /\ zlen rows = zlen (m_cat f) /\
  (exists e, tiles 0 (cut_ranges (m_cat f')) e /\ e <= reserved_pixels f /\
     forall t, In t (add_types ct) -> exists m, ext_find (m_ext f') t = Some m /\ zlen m = reserved_pixels f) /\
  (forall j co fl, asked f rg j -> 0 <= j < zlen (m_cat f) -> coadder j = Ok (Some co, fl) ->
     (forall t, In t (add_types ct) -> get_cutout f' j 0 t = Ok (coadd_plane co t)) /\ get_psf f' j 0 = Ok (co_psf co)) /\
  (forall j r, zget rows j = Some r ->
     exists o, zget (m_cat f) j = Some o /\ o_box (cr_obj r) = o_box o /\ cr_orig_ncutout r = o_ncut o - 1 /\
       o_id (cr_obj r) = o_id o /\ o_number (cr_obj r) = o_number o /\
     ((exists co fl rest, asked f rg j /\ coadder j = Ok (Some co, fl) /\ o_ncut (cr_obj r) = 1 /\
         cr_coadd_flags r = fl /\ cr_ncoadd r = co_ncoadd co /\ cr_orig_flags r = co_imflags co ++ rest) \/
      (exists fl, asked f rg j /\ coadder j = Ok (None, fl) /\ o_ncut (cr_obj r) = 0 /\
         cr_coadd_flags r = fl /\ cr_ncoadd r = 0 /\ forall x, In x (cr_orig_flags r) -> x = DEFVAL) \/
      (~ asked f rg j /\ o_ncut (cr_obj r) = 0 /\ cr_coadd_flags r = 0 /\ cr_ncoadd r = 0 /\ forall x, In x (cr_orig_flags r) -> x = DEFVAL))).
Proof.
  intros HS L P H. destruct (write_coadds_inv _ _ _ _ _ _ _ _ _ HS L P H) as (rows0 & st & RD & I & -> & ->).
  destruct (obj_data_ok _ _ RD) as (n & _ & _ & R1). pose proof (weaken_rows _ _ _ R1) as R0.
  split; [reflexivity|]. pose proof (inv_len _ _ _ _ _ _ _ _ _ _ I) as IL. pose proof (rows0_len f rows0 R0) as RL.
  split; [lia|]. split; [|split].
  - exists (Sc f coadder (lo_of rg) (hi_of f rg) (zlen (m_cat f))). cbn [m_cat m_ext].
    pose proof (out_tiles_n f (add_types ct) coadder (lo_of rg) (hi_of f rg) rows0 L HS R0 _ _ st I (length (ws_rows st)) (le_n _)) as T.
    rewrite firstn_all in T. change (Z.of_nat (length (ws_rows st))) with (zlen (ws_rows st)) in T. rewrite IL, RL in T. split; [exact T|]. split.
    + rewrite <- reserved_eq. apply Sc_total; [exact L|exact HS|]. pose proof (zlen_nonneg (m_cat f)). lia.
    + intros t IT. destruct (inv_ext _ _ _ _ _ _ _ _ _ _ I t IT) as (m & M1 & M2 & _). exists m. split; assumption.
  - intros j co fl A R C. apply asked_iff in A. destruct (zget_range_Some (m_cat f) j R) as (o & O). split.
    + intros t IT. eapply (out_cutout f (add_types ct) coadder (lo_of rg) (hi_of f rg) rows0); eassumption.
    + eapply (out_psf f (add_types ct) coadder (lo_of rg) (hi_of f rg) rows0); eassumption.
  - intros j r Z. pose proof (zget_Some_range _ _ _ Z) as RR. destruct (zget_range_Some rows0 j) as (r0 & Z0); [lia|].
    destruct (Forall2_zget _ _ _ R1 j r0 Z0) as (o & O & B1 & B2 & B3 & B4 & B5 & B6 & B7 & B8 & B9). exists o. split; [exact O|].
    destruct (inv_rows _ _ _ _ _ _ _ _ _ _ I j r0 Z0) as (r' & Z1 & D). rewrite Z in Z1. inversion Z1; subst r'; clear Z1.
    assert (DF : forall x, In x (cr_orig_flags r0) -> x = DEFVAL) by (intros x X; rewrite B7 in X; apply in_map_iff in X; destruct X as (_ & X & _); congruence).
    destruct D as [[D (x & fl & C & W)]|[D ->]].
    + assert (A : asked f rg j) by (apply asked_iff; lia). destruct x as [co|].
      * destruct W as (_ & W). pose proof W as W'. unfold filled_row in W'. apply bind_ok in W'. destruct W' as (l1 & _ & W').
        destruct (filled_obj _ _ _ _ _ _ W) as (s & rest & S1 & S2 & S3 & S4 & S5 & S6 & S7 & S8 & S9).
        assert (S10 : o_id (cr_obj r) = o_id (cr_obj r0) /\ o_number (cr_obj r) = o_number (cr_obj r0)) by (rewrite S1 in W'; inversion W'; split; reflexivity).
        destruct S10 as (S10 & S11). split; [congruence|]. split; [congruence|]. split; [congruence|]. split; [congruence|].
        left. exists co, fl, (skipn (length (co_imflags co)) (cr_orig_flags r0)). split; [exact A|]. split; [exact C|]. split; [exact S4|]. split; [exact S6|]. split; [exact S7|exact S9].
      * subst r. cbn [failed_row cr_obj cr_orig_ncutout cr_coadd_flags cr_ncoadd cr_orig_flags] in *. split; [congruence|]. split; [congruence|]. split; [congruence|]. split; [congruence|].
        right; left. exists fl. split; [exact A|]. split; [exact C|]. split; [exact B2|]. split; [reflexivity|]. split; [exact B3|exact DF].
    + split; [congruence|]. split; [congruence|]. split; [congruence|]. split; [congruence|]. right; right.
      split; [rewrite asked_iff; lia|]. split; [exact B2|]. split; [exact B4|]. split; [exact B3|exact DF].
Qed.

(** Psf pixels of the coadds made. *)
Definition psf_pixels (f : medsfile) (coadder : Z -> res (option cobs * Z)) (rg : option (Z * Z)) : Z :=
  Sp f coadder (lo_of rg) (hi_of f rg) (hi_of f rg).

Lemma psf_space_enough f coadder rg tp : 0 <= lo_of rg -> psf_space f coadder rg tp -> psf_pixels f coadder rg <= tp.
Proof.
  intros L H. transitivity (psf_needed coadder (filter (fun j => lo_of rg <=? j) (zrange (hi_of f rg)))).
  - unfold psf_pixels, Sp, psf_needed, zsum. generalize (zrange (hi_of f rg)). induction l as [|j l IH]; cbn [map fold_right filter]; [lia|].
    unfold co_at at 1. destruct (lo_of rg <=? j) eqn:E; cbn [map fold_right].
    + destruct (coadder j) as [[[co|] fl]|]; try lia. cbn [andb]. dif X; [|nia]. replace (nr (co_psf co) ^ 2) with (nr (co_psf co) * nr (co_psf co)) by ring. lia.
    + destruct (coadder j) as [[[co|] fl]|]; try lia. cbn [andb]. lia.
  - apply H; [apply NoDup_filter, zrange_NoDup|]. intros j J. apply filter_In in J. destruct J as (J & E). apply In_zrange in J. apply asked_iff. lia.
Qed.

Lemma write_coadds_total f ct tp junk pjunk coadder rg : stamp_shapes f coadder -> 0 <= lo_of rg -> hi_of f rg <= zlen (m_cat f) ->
  m_cat f <> [] -> m_number_col f = true -> Forall (fun o => o_slots o <> []) (m_cat f) ->
  (forall j, asked f rg j -> exists x fl, coadder j = Ok (x, fl) /\
     forall co o, x = Some co -> zget (m_cat f) j = Some o -> zlen (co_imflags co) <= o_ncut o - 1) ->
  psf_space f coadder rg tp ->
  exists rows f', write_coadds f ct tp junk pjunk coadder rg = Ok (rows, f').
Proof.
  intros HS L HI NE NC SL HC PS. pose proof (psf_space_enough _ _ _ _ L PS) as PP. assert (TP : 0 <= tp) by (apply (PS []); [constructor|intros j []]).
  destruct (obj_data_total f NE NC SL) as (rows0 & RD). destruct (obj_data_ok _ _ RD) as (n & NM & N2 & R1). pose proof (weaken_rows _ _ _ R1) as R0.
  unfold write_coadds. rewrite RD. cbn [bind].
  assert (RG : match rg with Some r => r | None => (0, zlen (m_cat f)) end = (lo_of rg, hi_of f rg)) by (destruct rg as [[x y]|]; reflexivity).
  rewrite RG, reserved_eq. unfold zrange2.
  assert (NN : zrange (hi_of f rg - lo_of rg) = zrange (Z.of_nat (Z.to_nat (hi_of f rg - lo_of rg)))) by (unfold zrange; rewrite Nat2Z.id; reflexivity). rewrite NN.
  destruct (fold_total f (add_types ct) coadder (lo_of rg) (hi_of f rg) rows0 L HS R0 (reserved_pixels f) tp junk pjunk) with (n := Z.to_nat (hi_of f rg - lo_of rg)) as (st & E);
    [symmetry; apply reserved_eq|exact PP|exact TP|exact HI| |lia|].
  - intros k K. destruct (HC k) as (x & fl & C & X); [apply asked_iff; exact K|]. exists x, fl. split; [exact C|]. intros co r0 -> Z0.
    destruct (Forall2_zget _ _ _ R1 k r0 Z0) as (o & O & _ & _ & _ & _ & _ & _ & B7 & _). specialize (X co o eq_refl O).
    rewrite B7, zlen_map, zlen_zrange by lia. rewrite Forall_forall in NM. specialize (NM o (zget_In _ _ _ O)). cbn beta in NM. lia.
  - unfold st0 in E. rewrite E. cbn [bind]. eexists. eexists. reflexivity.
Qed.

(** * The coadder's stamps *)
Lemma get_cutout_shape f iobj icut t ob im : zget (m_cat f) iobj = Some ob -> get_cutout f iobj icut t = Ok im -> sq (o_box ob) im /\ 0 < o_box ob.
Proof.
  intros HO H. unfold get_cutout in H. apply bind_ok in H. destruct H as (o & O & H). unfold check_indices in O. dif_in O E1; [discriminate|].
  apply bind_ok in O. destruct O as (o' & O' & O). apply py_index_ok_nonneg in O'; [|apply zget_Some_range in HO; lia]. rewrite HO in O'. inversion O'; subst o'.
  dif_in O E2; [discriminate|]. dif_in O E3; [discriminate|]. inversion O; subst o.
  apply bind_ok in H. destruct H as (s & _ & H). apply bind_ok in H. destruct H as (m & _ & H). apply bind_ok in H. destruct H as (x & X & H).
  apply slice_ok in X. apply reshape_ok in H. destruct H as (-> & H). split; [split; [exact H|split; reflexivity]|]. destruct H as (H1 & _). cbn [nr] in H1. nia.
Qed.
Lemma seg_image_shape f iobj jm cen ob im : zget (m_cat f) iobj = Some ob -> interpolate_coadd_seg_image f iobj jm cen = Ok im -> sq (o_box ob) im.
Proof.
  intros HO H. unfold interpolate_coadd_seg_image in H. apply bind_ok in H. destruct H as (seg & SG & H). destruct (get_cutout_shape _ _ _ _ _ _ HO SG) as ((S1 & S2 & S3) & B).
  apply bind_ok in H. destruct H as (j & _ & H). apply bind_ok in H. destruct H as (cc & _ & H). apply bind_ok in H. destruct H as (inv & _ & H).
  apply tab2M_ok in H; [|apply S1|apply S1]. destruct H as (I1 & I2 & I3 & _). split; [exact I1|]. split; lia.
Qed.

Lemma obslist_psfs c o f iobj obslist fl : get_obslist c o f iobj = Ok (obslist, fl) -> forall ob, In ob obslist -> exists icut j, or_psf o icut j = Ok (ob_psf ob).
Proof.
  intros H. unfold get_obslist in H. apply bind_ok in H. destruct H as (ims & _ & H). dif_in H E; [inversion H; subst; intros ob []|].
  apply bind_ok in H. destruct H as (wts & _ & H). apply bind_ok in H. destruct H as (bms & _ & H). apply bind_ok in H. destruct H as (wts' & _ & H).
  apply bind_ok in H. destruct H as (segs & _ & H). apply bind_ok in H. destruct H as (st & F & H). inversion H; subst; clear H.
  revert F. apply (foldM_inv (fun st : list obs * list Z => forall ob, In ob (fst st) -> exists icut j, or_psf o icut j = Ok (ob_psf ob))).
  - intros ob [].
  - clear st. intros st k st' _ P S. unfold obslist_step in S. apply bind_ok in S. destruct S as (im & _ & S). apply bind_ok in S. destruct S as (w & _ & S).
    apply bind_ok in S. destruct S as (seg & _ & S). apply bind_ok in S. destruct S as (m & _ & S). apply bind_ok in S. destruct S as (w' & _ & S).
    apply bind_ok in S. destruct S as (m' & _ & S). apply bind_ok in S. destruct S as (fl' & _ & S). dif_in S X.
    + apply bind_ok in S. destruct S as (imf & _ & S). inversion S; subst. exact P.
    + apply bind_ok in S. destruct S as (j & _ & S). apply bind_ok in S. destruct S as (psf & PS & S). apply bind_ok in S. destruct S as ([[[i1 i2] i3] i4] & _ & S).
      inversion S; subst. cbn [fst]. intros ob I. apply in_app_iff in I. destruct I as [I|[<-|[]]]; [apply P; exact I|]. exists (k + 1), j. exact PS.
Qed.

Lemma coadder_stamps c o f jm : reject_keeps_shapes o -> coadds_stamps o -> stamp_shapes f (get_coadd_obs c o f jm).
Proof.
  intros HR (HP & HCo) j ob co fl O H. destruct (get_coadd_obs_spec c o f jm j ob (Some co) fl HR O H) as [(_ & X & _)|(N & ims & wts & bms & ds & ol & _ & _ & _ & _ & _ & _ & _ & SB & SO & _)]; [discriminate|].
  unfold get_coadd_obs in H. apply bind_ok in H. destruct H as ([obslist imf] & GL & H). pose proof (obslist_psfs _ _ _ _ _ _ GL) as PS.
  destruct (get_obslist_spec c o f j ob obslist imf HR O GL) as [(_ & -> & _)|(_ & ims' & wts' & bms' & ds' & EM & DE & _ & _ & _ & DB)]; [discriminate|].
  destruct obslist as [|ob0 rest]; [discriminate|]. apply bind_ok in H. destruct H as (orm & _ & H). apply bind_ok in H. destruct H as ([[[[[[im wt] noise] jac] psf] pr] pc] & CO & H).
  apply bind_ok in H. destruct H as (seg & SG & H). apply bind_ok in H. destruct H as (imf' & _ & H). inversion H; subst; clear H. cbn [co_bmask co_ormask] in SB, SO.
  destruct EM as (im0 & wt0 & bm0 & wts0 & bmsq & C1 & _). destruct (cutout_list_shapes _ _ _ _ _ O C1) as (_ & _ & BP & SI).
  assert (SH : Forall (fun ob' => square_of (o_box ob) (ob_image ob') /\ square_of (o_box ob) (ob_weight ob') /\ square_of (o_box ob) (ob_noise ob') /\ psf_ok (ob_psf ob')) (ob0 :: rest)).
  { destruct DE as (_ & DD & F2). apply Forall_forall. intros x X.
    assert (Q : exists d, In d ds' /\ repaired (total_mask (c_bmask_flags c)) (d_im d) (d_wt d) (d_bm d) (ob_image x) (ob_weight x) (ob_noise x) (ob_ninterp x)).
    { assert (G : forall l l', Forall2 (fun d ob1 => ob_bmask ob1 = d_bm d /\ repaired (total_mask (c_bmask_flags c)) (d_im d) (d_wt d) (d_bm d) (ob_image ob1) (ob_weight ob1) (ob_noise ob1) (ob_ninterp ob1)) l l' ->
        In x l' -> exists d, In d l /\ repaired (total_mask (c_bmask_flags c)) (d_im d) (d_wt d) (d_bm d) (ob_image x) (ob_weight x) (ob_noise x) (ob_ninterp x)).
      { induction 1 as [|d y l l' (_ & HH) FF IH]; [intros []|]. intros [->|I]; [exists d; split; [left; reflexivity|exact HH]|]. destruct (IH I) as (d' & D1 & D2). exists d'. split; [right; exact D1|exact D2]. }
      destruct (G _ _ F2 X) as (d & D1 & D2). apply filter_In in D1. exists d. split; [apply D1|exact D2]. }
    destruct Q as (d & D1 & (R1 & R2 & R3 & R4 & R5 & R6 & R7 & R8 & R9 & _)). apply In_zget in D1. destruct D1 as (k & K).
    destruct (DD k d K) as (w & m & X1 & X2 & X3 & X4 & _). assert (SD : sq (o_box ob) (d_im d)) by (apply SI; right; eapply zget_In; exact X1). destruct SD as (T1 & T2 & T3).
    assert (WB : nr (d_wt d) = o_box ob /\ nc (d_wt d) = o_box ob).
    { destruct (DB d (zget_In _ _ _ K)) as ((U1 & U2 & U3) & _). split; assumption. }
    destruct WB as (W1 & W2). split; [split; [exact R1|split; lia]|]. split; [split; [exact R4|split; lia]|]. split; [split; [exact R7|split; lia]|].
    destruct (PS x X) as (ic & jj & PP). exact (HP _ _ _ PP). }
  destruct (HCo _ _ _ _ _ _ _ _ _ SH CO) as (Q1 & Q2 & Q3 & (P1 & P2 & P3)).
  split; [exact BP|]. split; [|split; [exact P1|split; [exact P2|exact P3]]].
  pose proof (seg_image_shape _ _ _ _ _ _ O SG) as QS.
  intros t. destruct t; cbn [coadd_plane co_image co_weight co_seg co_bmask co_ormask co_noise]; try assumption.
  - destruct SB as (B1 & B2 & B3). split; [apply imap_ok; exact B1|split; assumption].
  - destruct SO as (B1 & B2 & B3). split; [apply imap_ok; exact B1|split; assumption].
Qed.
