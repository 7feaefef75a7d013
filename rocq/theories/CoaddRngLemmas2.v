(** Coadds from different parts of the stream; the file of coadds. *)
From Coq Require Import Lia ZifyBool ZifyNat Qabs Lqa Qfield Permutation.
From Verif Require Import Base BaseLemmas Img ImgLemmas Types Reader BoundsM MakerLayout MakerWrite Composite Coadd CoaddRng
  SpecTiles SpecFile SpecComposite SpecCoadd SpecCoaddRng ReadLemmas CalibLemmas CompositeLemmas OutlierLemmas
  CoaddLemmas CoaddLemmas2 CoaddLemmas3 CoaddLemmas4 CoaddRngLemmas.
Open Scope Z_scope.

(** * Two noises *)

Lemma interp_two c o nz nz' icut im wt bm im' wt' noise n : interp_total o -> img_ok wt -> img_ok bm ->
  interp_bad_pixels c (with_noise o nz) icut im wt bm = Ok (im', wt', noise, n) ->
  exists noise', interp_bad_pixels c (with_noise o nz') icut im wt bm = Ok (im', wt', noise', n).
Proof.
  intros IT Hw Hb H. unfold interp_bad_pixels in H |- *. dif_in H EC; [discriminate|].
  apply bind_ok in H. destruct H as (z & Z & H). rewrite Z. cbn [bind].
  apply img_zip_ok in Z; [|exact Hw|exact Hb]. destruct Z as (Z1 & Z2 & Z3 & Z4 & Z5 & Z6).
  assert (LZ : zlen (dat z) = nr wt * nc wt) by (destruct Z3 as (_ & _ & Z3); rewrite Z3, Z4, Z5; reflexivity).
  destruct (where_ (dat z)) as [|i0 wb] eqn:EW.
  - inversion H; subst; clear H. eexists. reflexivity.
  - apply bind_ok in H. destruct H as (gw & GW & H). apply bind_ok in H. destruct H as (med & MED & H).
    apply bind_ok in H. destruct H as (wd & WD & H). apply bind_ok in H. destruct H as (imi & IMI & H).
    apply bind_ok in H. destruct H as (ni & NI & H). inversion H; subst; clear H.
    rewrite GW. cbn [bind]. rewrite MED. cbn [bind]. rewrite WD. cbn [bind].
    change (do_interp (with_noise o nz') im) with (do_interp (with_noise o nz) im). rewrite IMI. cbn [bind].
    assert (NE : where_ (map negb (dat z)) <> []).
    { intros E. rewrite E in GW. inversion GW; subst gw. discriminate MED. }
    destruct (do_interp_total (with_noise o nz') (make_noise_image (with_noise o nz') icut (mkImg (nr wt) (nc wt) wd)) (where_ (map negb (dat z))) (i0 :: wb)) as (x & X);
      [exact IT|exact NE| |rewrite X; eexists; reflexivity].
    intros i I. apply In_where in I. apply zget_Some_range in I. rewrite zlen_map in I.
    pose proof (tab2_ok (nr wt) (nc wt) (or_noise (with_noise o nz') icut (mkImg (nr wt) (nc wt) wd))) as (_ & _ & T3); [apply Hw|apply Hw|].
    unfold make_noise_image. cbn [nr nc]. rewrite T3. cbn [tab2 nr nc]. lia.
Qed.

Definition st_rel (s s' : list obs * list Z) : Prop := Forall2 obs_but_noise (fst s) (fst s') /\ snd s = snd s'.

Lemma but_noise_refl ob n : obs_but_noise ob (mkObs (ob_image ob) (ob_weight ob) (ob_bmask ob) (ob_seg ob) n (ob_jac ob) (ob_offset ob) (ob_psf ob) (ob_ninterp ob)).
Proof. repeat split. Qed.

Section Two.
Variables (c : cconf) (o : oracle) (f : medsfile) (iobj : Z).
Variables (ims wts segs : list (img Q)) (bms : list (img Z)) (b : Z).
Hypothesis IT : interp_total o.
Hypothesis HW : forall im, In im wts -> sq b im.
Hypothesis HB : forall im, In im bms -> sq b im.

Lemma step_two nz nz' s s2 i s' : 0 <= i -> st_rel s s2 ->
  obslist_step c (with_noise o nz) f iobj ims wts segs bms s i = Ok s' ->
  exists s2', obslist_step c (with_noise o nz') f iobj ims wts segs bms s2 i = Ok s2' /\ st_rel s' s2' /\
    ((fst s' = fst s /\ fst s2' = fst s2) \/ exists ob ob', fst s' = fst s ++ [ob] /\ fst s2' = fst s2 ++ [ob'] /\ obs_but_noise ob ob').
Proof.
  intros HK (R1 & R2) H. unfold obslist_step in H |- *.
  apply bind_ok in H. destruct H as (im & IM & H). apply bind_ok in H. destruct H as (w & WT & H).
  apply bind_ok in H. destruct H as (seg & SG & H). apply bind_ok in H. destruct H as (m & BM & H).
  apply bind_ok in H. destruct H as (w' & W' & H). apply bind_ok in H. destruct H as (m' & M' & H).
  apply bind_ok in H. destruct H as (fl & FL & H).
  rewrite IM; cbn [bind]. rewrite WT; cbn [bind]. rewrite SG; cbn [bind]. rewrite BM; cbn [bind]. rewrite W'; cbn [bind]. rewrite M'; cbn [bind]. rewrite FL; cbn [bind].
  apply py_index_ok_nonneg in WT; [|exact HK]. apply py_index_ok_nonneg in BM; [|exact HK].
  pose proof (HW _ (zget_In _ _ _ WT)) as SW. pose proof (HB _ (zget_In _ _ _ BM)) as SB.
  assert (DO : decided_on c w m w' m').
  { unfold decided_on. destruct (c_symmetrize c).
    - destruct SW as (S1 & S2 & S3), SB as (T1 & T2 & T3). split; [apply symmetrize_weight_ok in W'; [apply W'|exact S1]|].
      apply symmetrize_bmask_ok in M'; [exact M'|exact T1|lia].
    - inversion W'; inversion M'; split; congruence. }
  destruct (decided_shapes _ _ _ _ _ _ SW SB DO) as ((S1 & S2 & S3) & (T1 & T2 & T3)).
  destruct (negb (fl =? 0)).
  - apply bind_ok in H. destruct H as (imf & MO & H). inversion H; subst; clear H. rewrite <- R2, MO. cbn [bind].
    eexists. split; [reflexivity|]. cbn [fst snd]. split; [split; [exact R1|reflexivity]|]. left. split; reflexivity.
  - apply bind_ok in H. destruct H as (j & J & H). apply bind_ok in H. destruct H as (psf & PS & H).
    apply bind_ok in H. destruct H as ([[[im' wt'] noise] n] & IN & H). inversion H; subst; clear H.
    rewrite J; cbn [bind]. cbn [or_psf with_noise] in PS |- *. rewrite PS; cbn [bind].
    destruct (interp_two _ _ _ nz' _ _ _ _ _ _ _ _ IT S1 T1 IN) as (noise' & ->). cbn [bind].
    eexists. split; [reflexivity|]. cbn [fst snd]. split.
    + split; [|exact R2]. apply Forall2_app; [exact R1|]. constructor; [repeat split|constructor].
    + right. eexists _, _. split; [reflexivity|]. split; [reflexivity|]. repeat split.
Qed.

Lemma step_r_two g err g' err' s p s2 p2 i s' p' : 0 <= i -> st_rel s s2 ->
  obslist_step_r c o g err f iobj ims wts segs bms (s, p) i = Ok (s', p') ->
  exists s2', obslist_step_r c o g' err' f iobj ims wts segs bms (s2, p2) i = Ok (s2', p2 + (p' - p)) /\ st_rel s' s2'.
Proof.
  intros HK R H. unfold obslist_step_r in H |- *. apply bind_ok in H. destruct H as (l' & S & H). inversion H; subst l' p'; clear H.
  destruct (step_two _ (fun _ => noise_at g' err' p2) _ _ _ _ HK R S) as (s2' & E & R' & D). rewrite E. cbn [bind]. exists s2'. split; [|exact R'].
  f_equal. f_equal. enough (drawn (skipn (length (fst s2)) (fst s2')) = drawn (skipn (length (fst s)) (fst s'))) as -> by lia.
  destruct D as [(-> & ->)|(ob & ob' & -> & -> & B)].
  - rewrite !skipn_all2 by lia. reflexivity.
  - rewrite !skipn_app, (skipn_all2 (fst s2)), (skipn_all2 (fst s)), !Nat.sub_diag by lia. cbn [app skipn]. unfold drawn. cbn [map]. destruct B as (_ & B & _). rewrite B. reflexivity.
Qed.

Lemma fold_r_two g err g' err' p2 : forall js s p s2 s' p', (forall i, In i js -> 0 <= i) -> st_rel s s2 ->
  foldM (obslist_step_r c o g err f iobj ims wts segs bms) js (s, p) = Ok (s', p') ->
  exists s2', foldM (obslist_step_r c o g' err' f iobj ims wts segs bms) js (s2, p2) = Ok (s2', p2 + (p' - p)) /\ st_rel s' s2'.
Proof.
  intros js. revert p2. induction js as [|i js IH]; intros p2 s p s2 s' p' HP R H; cbn [foldM] in *.
  - inversion H; subst. exists s2. split; [f_equal; f_equal; lia|exact R].
  - apply bind_ok in H. destruct H as ([s1 p1] & S & H).
    destruct (step_r_two _ _ g' err' _ _ _ p2 _ _ _ (HP i (or_introl eq_refl)) R S) as (s2' & -> & R'). cbn [bind].
    destruct (IH (p2 + (p1 - p)) s1 p1 s2' s' p') as (s3 & E & R3); [intros x X; apply HP; right; exact X|exact R'|exact H|].
    exists s3. split; [rewrite E; f_equal; f_equal; lia|exact R3].
Qed.
End Two.

Lemma obslist_r_two c o g err g' err' f p p2 iobj ob obslist fl p' : interp_total o -> reject_keeps_shapes o -> zget (m_cat f) iobj = Some ob ->
  get_obslist_r c o g err f p iobj = Ok (obslist, fl, p') ->
  exists obslist', get_obslist_r c o g' err' f p2 iobj = Ok (obslist', fl, p2 + (p' - p)) /\ Forall2 obs_but_noise obslist obslist'.
Proof.
  intros IT HR HO H. unfold get_obslist_r in H |- *. apply bind_ok in H. destruct H as (ims & IM & H). rewrite IM. cbn [bind].
  destruct (cutout_list_shapes _ _ _ _ _ HO IM) as (L1 & L2 & L3 & L4).
  dif_in H E; [inversion H; subst; exists []; split; [do 2 f_equal; lia|constructor]|].
  apply bind_ok in H. destruct H as (wts & WT & H). apply bind_ok in H. destruct H as (bms & BM & H). rewrite WT; cbn [bind]. rewrite BM; cbn [bind].
  destruct (cutout_list_shapes _ _ _ _ _ HO WT) as (W1 & _ & _ & W4). destruct (cutout_list_shapes _ _ _ _ _ HO BM) as (B1 & _ & _ & B4).
  destruct ims as [|im0 ims]; [unfold zlen in L1; cbn [length] in L1; lia|].
  destruct wts as [|wt0 wts]; [unfold zlen in W1; cbn [length] in W1; lia|].
  destruct bms as [|bm0 bms]; [unfold zlen in B1; cbn [length] in B1; lia|]. cbn [tl] in *.
  apply bind_ok in H. destruct H as (wts' & RJ & H). rewrite RJ; cbn [bind]. apply bind_ok in H. destruct H as (segs & SG & H). rewrite SG; cbn [bind].
  apply bind_ok in H. destruct H as ([st q] & F & H). cbn [fst snd] in H. inversion H; subst; clear H.
  assert (WS : zlen wts' = zlen wts /\ forall im, In im wts' -> sq (o_box ob) im).
  { destruct (c_reject c); [eapply reject_shapes; [exact HR|exact RJ|]|inversion RJ; subst; split; [reflexivity|]]; intros im I; apply W4; right; exact I. }
  destruct WS as (WL & WS).
  assert (BS : forall im, In im (map (imap qtrunc) bms) -> sq (o_box ob) im).
  { intros im I. apply in_map_iff in I. destruct I as (m & <- & I). destruct (B4 m (or_intror I)) as (C1 & C2 & C3).
    split; [apply imap_ok; exact C1|]. split; assumption. }
  destruct (fold_r_two c o f iobj ims wts' segs (map (imap qtrunc) bms) (o_box ob) IT WS BS g err g' err' p2 (zrange (zlen ims)) ([], map (fun _ => 0) (zrange (zlen ims))) p ([], map (fun _ => 0) (zrange (zlen ims))) st p')
    as (s2 & E2 & R1 & R2).
  - intros i I. apply In_zrange in I. lia.
  - split; [constructor|reflexivity].
  - exact F.
  - rewrite E2. cbn [bind fst snd]. exists (fst s2). split; [rewrite R2; reflexivity|exact R1].
Qed.

Lemma lor_two l l' : Forall2 obs_but_noise l l' -> forall m, foldM (fun m ob => img_lor m (ob_bmask ob)) l m = foldM (fun m ob => img_lor m (ob_bmask ob)) l' m.
Proof.
  induction 1 as [|x y l l' B R IH]; intros m; cbn [foldM]; [reflexivity|]. destruct B as (_ & _ & -> & _). destruct (img_lor m (ob_bmask y)); cbn [bind]; [apply IH|reflexivity].
Qed.

Lemma coadd_obs_r_two c o g err g' err' f jm p p2 iobj ob r fl p' : interp_total o -> reject_keeps_shapes o -> noise_apart o -> zget (m_cat f) iobj = Some ob ->
  get_coadd_obs_r c o g err f jm p iobj = Ok (r, fl, p') ->
  exists r', get_coadd_obs_r c o g' err' f jm p2 iobj = Ok (r', fl, p2 + (p' - p)) /\ but_noise r r'.
Proof.
  intros IT HR HN HO H. unfold get_coadd_obs_r in H |- *. apply bind_ok in H. destruct H as ([[l fs] q] & O & H).
  destruct (obslist_r_two _ _ _ _ g' err' _ _ p2 _ _ _ _ _ IT HR HO O) as (l' & -> & B). cbn [bind].
  destruct l as [|ob0 l]; inversion B as [|? ob0' ? l'' B0 B1]; subst; [inversion H; subst; exists None; split; [reflexivity|exact I]|].
  pose proof B0 as (_ & _ & M & _). rewrite <- M. rewrite <- (lor_two _ _ B).
  apply bind_ok in H. destruct H as (om & OM & H). rewrite OM; cbn [bind].
  apply bind_ok in H. destruct H as ([[[[[[im wt] noise] jac] psf] pr] pc] & OC & H).
  pose proof (HN _ _ B) as A. rewrite OC in A.
  destruct (or_coadd o (ob0' :: l'')) as [[[[[[[im' wt'] noise'] jac'] psf'] pr'] pc']|e]; [|destruct A]. cbn [bind].
  destruct A as (-> & -> & -> & -> & -> & ->).
  apply bind_ok in H. destruct H as (seg & SG & H). rewrite SG; cbn [bind]. apply bind_ok in H. destruct H as (fls & FL & H).
  rewrite FL; cbn [bind]. inversion H; subst. eexists. split; [reflexivity|]. unfold but_noise. cbn.
  repeat split. unfold zlen. apply Forall2_len in B1. cbn [length]. lia.
Qed.
