(** The random numbers of the coadder. *)
From Coq Require Import Lia ZifyBool ZifyNat Qabs Lqa Qfield Permutation.
From Verif Require Import Base BaseLemmas Img ImgLemmas Types Reader BoundsM MakerLayout MakerWrite Composite Coadd CoaddRng
  SpecTiles SpecFile SpecComposite SpecCoadd SpecCoaddRng ReadLemmas CalibLemmas CompositeLemmas OutlierLemmas CoaddLemmas CoaddLemmas2 CoaddLemmas3 CoaddLemmas4.
Open Scope Z_scope.

(** * The noise of a repaired cutout *)

Lemma make_noise_px o icut w r k : 0 <= r < nr w -> 0 <= k < nc w -> px (make_noise_image o icut w) r k = Some (or_noise o icut w r k).
Proof. intros R K. unfold make_noise_image. rewrite px_tab2. dif E; [reflexivity|lia]. Qed.

Lemma interp_noise c o icut im wt bm im' wt' noise n : img_ok im -> img_ok wt -> img_ok bm ->
  interp_bad_pixels c o icut im wt bm = Ok (im', wt', noise, n) ->
  forall r k, 0 <= r < nr wt -> 0 <= k < nc wt -> ~ unusable_px (total_mask (c_bmask_flags c)) wt bm (r, k) ->
    px noise r k = Some (or_noise o icut wt' r k).
Proof.
  intros Hi Hw Hb H r k R K N. unfold interp_bad_pixels in H. dif_in H EC; [discriminate|].
  apply bind_ok in H. destruct H as (z & Z & H). rewrite bad_flags_total in Z.
  apply img_zip_ok in Z; [|exact Hw|exact Hb]. destruct Z as (Z1 & Z2 & Z3 & Z4 & Z5 & Z6).
  assert (HU : In (r * nc wt + k) (where_ (dat z)) -> unusable_px (total_mask (c_bmask_flags c)) wt bm (r, k)).
  { rewrite In_where. rewrite <- Z5. rewrite <- px_flat by lia. rewrite Z6. unfold unusable_px. cbn [fst snd].
    destruct (px_in wt r k Hw) as (w & Pw); [lia|lia|]. destruct (px_in bm r k Hb) as (b & Pb); [lia|lia|]. rewrite Pw, Pb.
    intros E. inversion E as [E']. exists w, b. repeat split. apply pix_bad_spec. exact E'. }
  assert (LZ : zlen (dat z) = nr wt * nc wt) by (destruct Z3 as (_ & _ & Z3); rewrite Z3, Z4, Z5; reflexivity).
  destruct (where_ (dat z)) as [|i0 wb] eqn:EW.
  - inversion H; subst; clear H. apply make_noise_px; assumption.
  - rewrite <- EW in *. clear EW i0 wb.
    apply bind_ok in H. destruct H as (gw & GW & H). apply bind_ok in H. destruct H as (med & MED & H).
    apply bind_ok in H. destruct H as (wd & WD & H). apply bind_ok in H. destruct H as (imi & IMI & H).
    apply bind_ok in H. destruct H as (ni & NI & H). inversion H; subst; clear H.
    assert (OKM : img_ok (make_noise_image o icut (mkImg (nr wt) (nc wt) wd))) by (apply tab2_ok; apply Hw).
    apply do_interp_ok in NI; [|exact OKM|].
    2:{ intros i I. apply In_where in I. apply zget_Some_range in I. destruct OKM as (_ & _ & ->). cbn [make_noise_image tab2 nr nc]. lia. }
    destruct NI as (_ & _ & _ & K4). rewrite K4; [|exact R|exact K|intros C; apply N; apply HU; exact C].
    apply make_noise_px; assumption.
Qed.

(** * Steps *)

Section Fold.
Variables (c : cconf) (o : oracle) (g : Z -> Q) (err : Q -> Q) (f : medsfile) (iobj : Z).
Variables (ims wts segs : list (img Q)) (bms : list (img Z)) (b : Z).
Hypothesis HI : forall im, In im ims -> sq b im.
Hypothesis HW : forall im, In im wts -> sq b im.
Hypothesis HB : forall im, In im bms -> sq b im.
Notation bad := (total_mask (c_bmask_flags c)).

Lemma step_ok_r st p k st' p' : 0 <= k -> zget (snd st) k = Some 0 ->
  obslist_step_r c o g err f iobj ims wts segs bms (st, p) k = Ok (st', p') ->
  exists d, dec_ok c ims wts bms k d /\ zlen (snd st') = zlen (snd st) /\
    (forall j, zget (snd st') j = if j =? k then Some (d_flag d) else zget (snd st) j) /\
    if d_flag d =? 0 then exists ob, fst st' = fst st ++ [ob] /\ obs_of c d ob /\ noise_from bad g err p d ob /\ p' = p + nr (ob_weight ob) * nc (ob_weight ob) /\
        0 <= nr (ob_weight ob) * nc (ob_weight ob)
    else fst st' = fst st /\ p' = p.
Proof.
  intros HK HZ H. unfold obslist_step_r in H. apply bind_ok in H. destruct H as (l' & S & H). inversion H; subst l' p'; clear H.
  pose proof S as S0. unfold obslist_step in S.
  apply bind_ok in S. destruct S as (im & IM & H). apply bind_ok in H. destruct H as (w & WT & H).
  apply bind_ok in H. destruct H as (seg & _ & H). apply bind_ok in H. destruct H as (m & BM & H).
  apply bind_ok in H. destruct H as (w' & W' & H). apply bind_ok in H. destruct H as (m' & M' & H).
  apply bind_ok in H. destruct H as (fl & FL & H).
  apply py_index_ok_nonneg in IM; [|exact HK]. apply py_index_ok_nonneg in WT; [|exact HK]. apply py_index_ok_nonneg in BM; [|exact HK].
  pose proof (HI _ (zget_In _ _ _ IM)) as SI. pose proof (HW _ (zget_In _ _ _ WT)) as SW. pose proof (HB _ (zget_In _ _ _ BM)) as SB.
  assert (DO : decided_on c w m w' m').
  { unfold decided_on. destruct (c_symmetrize c).
    - destruct SW as (S1 & S2 & S3), SB as (T1 & T2 & T3). split; [apply symmetrize_weight_ok in W'; [apply W'|exact S1]|].
      apply symmetrize_bmask_ok in M'; [exact M'|exact T1|lia].
    - inversion W'; inversion M'; split; congruence. }
  destruct (decided_shapes _ _ _ _ _ _ SW SB DO) as ((S1 & S2 & S3) & (T1 & T2 & T3)).
  assert (FR : first_reason c w' m' fl) by (apply cutout_flag_spec; try assumption; lia).
  exists (mkDec im w' m' fl). cbn [d_flag]. split.
  { exists w, m. cbn [d_im d_wt d_bm d_flag]. repeat split; assumption. }
  dif_in H E.
  - replace (fl =? 0) with false by lia. apply bind_ok in H. destruct H as (imf & MO & H). inversion H; subst; clear H. cbn [fst snd].
    unfold modify in MO. unfold zget in HZ. destruct (k <? 0) eqn:EK; [lia|]. rewrite HZ in MO. inversion MO; subst; clear MO.
    assert (RL : 0 <= k < zlen (snd st)) by (apply (zget_Some_range _ _ 0); unfold zget; rewrite EK; exact HZ).
    split; [unfold zlen; rewrite upd_length; reflexivity|]. split; [intros j; rewrite zget_upd by exact RL; reflexivity|].
    split; [reflexivity|]. rewrite skipn_all2 by lia. unfold drawn. cbn [map Coadd.zsum fold_right]. lia.
  - assert (F0 : fl = 0) by lia. subst fl. cbn [Z.eqb]. apply bind_ok in H. destruct H as (j & _ & H). apply bind_ok in H. destruct H as (psf & _ & H).
    apply bind_ok in H. destruct H as ([[[im' wt'] noise] n] & IN & H). inversion H; subst; clear H. cbn [fst snd].
    split; [reflexivity|]. split; [intros j'; dif E2; [replace j' with k by lia; exact HZ|reflexivity]|].
    destruct SI as (I1 & I2 & I3).
    assert (RP : repaired bad im w' m' im' wt' noise n) by (eapply interp_spec; [exact I1|exact S1|exact T1|lia|lia|exact IN]).
    pose proof RP as RP'. destruct RP as (_ & _ & _ & R1 & R2 & R3 & R4 & R5 & R6 & R7 & _).
    eexists. split; [reflexivity|]. split; [split; [reflexivity|exact RP']|]. cbn [ob_weight]. split; [|split].
    + intros r q RR RQ NU. cbn [ob_weight ob_noise d_wt d_bm] in *.
      pose proof (interp_noise _ _ _ _ _ _ _ _ _ _ I1 S1 T1 IN r q) as PN. rewrite PN; [|lia|lia|exact NU].
      cbn [or_noise with_noise]. unfold noise_at. destruct (px_in wt' r q R1) as (x & PX); [lia|lia|]. rewrite PX. exists x. split; reflexivity.
    + rewrite skipn_app, skipn_all2, Nat.sub_diag by lia. cbn [app skipn]. unfold drawn. cbn [map Coadd.zsum fold_right ob_weight]. lia.
    + destruct R1 as (Q1 & Q2 & _). nia.
Qed.

Lemma tiles_snoc x rs m y : tiles x rs m -> m <= y -> tiles x (rs ++ [(m, y)]) y.
Proof. induction 1; intros L; cbn [app]; constructor; auto. constructor. Qed.

Lemma obslist_fold_r p N : forall n st p', Z.of_nat n <= N ->
  foldM (obslist_step_r c o g err f iobj ims wts segs bms) (zrange (Z.of_nat n)) (([], map (fun _ => 0) (zrange N)), p) = Ok (st, p') ->
  exists ds rs, length ds = n /\ (forall k d, zget ds k = Some d -> dec_ok c ims wts bms k d) /\
    Forall2 (obs_of c) (filter (fun d => d_flag d =? 0) ds) (fst st) /\
    tiles p rs p' /\ numbers_used bad g err (filter (fun d => d_flag d =? 0) ds) (fst st) rs /\
    zlen (snd st) = N /\
    forall k, 0 <= k < N -> zget (snd st) k = match zget ds k with Some d => Some (d_flag d) | None => Some 0 end.
Proof.
  induction n as [|n IH]; intros st p' L H.
  - inversion H; subst; clear H. exists [], []. split; [reflexivity|]. split; [intros k d Z; apply zget_Some_range in Z; unfold zlen in Z; cbn [length] in Z; lia|].
    split; [constructor|]. split; [constructor|]. split.
    { split; [reflexivity|]. split; [reflexivity|]. intros k d ob x y Z. apply zget_Some_range in Z. unfold zlen in Z; cbn [filter length] in Z; lia. }
    cbn [fst snd]. split; [rewrite zlen_map, zlen_zrange; lia|].
    intros k K. rewrite zget_map, zget_zrange by lia. replace (zget (@nil decision) k) with (@None decision); [reflexivity|].
    symmetry. apply zget_None. unfold zlen; cbn [length]; lia.
  - rewrite zrange_S, foldM_app in H. apply bind_ok in H. destruct H as ([st0 p0] & H0 & H).
    destruct (IH st0 p0) as (ds & rs & D1 & D2 & D3 & D4 & D5 & D6 & D7); [lia|exact H0|].
    cbn [foldM] in H. apply bind_ok in H. destruct H as (st1 & H & E). inversion E; subst st1; clear E.
    assert (LD : zlen ds = Z.of_nat n) by (unfold zlen; lia).
    apply step_ok_r in H; [|lia|].
    2:{ rewrite D7 by lia. replace (zget ds (Z.of_nat n)) with (@None decision); [reflexivity|]. symmetry. apply zget_None. lia. }
    destruct H as (d & E1 & E2 & E3 & E4). exists (ds ++ [d]), (if d_flag d =? 0 then rs ++ [(p0, p')] else rs).
    split; [rewrite app_length; cbn [length]; lia|]. split.
    { intros k x. rewrite zget_snoc. dif E; [|apply D2]. intros X; inversion X; subst x. replace k with (Z.of_nat n) by lia. exact E1. }
    rewrite filter_snoc. destruct (d_flag d =? 0).
    + destruct E4 as (ob & F & O & NF & P & PP).
      split; [rewrite F; apply Forall2_app; [exact D3|]; constructor; [exact O|constructor]|].
      split; [apply tiles_snoc; [exact D4|lia]|]. split.
      { destruct D5 as (U1 & U2 & U3). rewrite F. split; [rewrite !app_length; cbn [length]; lia|]. split; [rewrite !app_length; cbn [length]; lia|].
        intros k d' ob' x y. rewrite !zget_snoc. unfold zlen. rewrite U1, U2. dif E.
        - intros X1 X2 X3. inversion X1; inversion X2; inversion X3; subst. split; [reflexivity|exact NF].
        - apply U3. }
      split; [lia|]. intros k K. rewrite E3, zget_snoc, LD. dif E; [reflexivity|]. apply D7. exact K.
    + destruct E4 as (F & ->). rewrite F, app_nil_r. split; [exact D3|]. split; [exact D4|]. split; [exact D5|].
      split; [lia|]. intros k K. rewrite E3, zget_snoc, LD. dif E; [reflexivity|]. apply D7. exact K.
Qed.
End Fold.

Lemma get_obslist_r_spec c o g err f p iobj ob obslist fl p' : reject_keeps_shapes o -> zget (m_cat f) iobj = Some ob ->
  get_obslist_r c o g err f p iobj = Ok (obslist, fl, p') ->
  (o_ncut ob = 1 /\ obslist = [] /\ fl = None /\ p' = p) \/
  (1 < o_ncut ob /\ exists ims wts bms ds rs, epoch_maps c o f iobj ims wts bms /\ decided c ims wts bms ds obslist /\
     fl = Some (map d_flag ds) /\ tiles p rs p' /\
     numbers_used (total_mask (c_bmask_flags c)) g err (filter (fun d => d_flag d =? 0) ds) obslist rs).
Proof.
  intros HR HO H. unfold get_obslist_r in H. apply bind_ok in H. destruct H as (ims & IM & H).
  destruct (cutout_list_shapes _ _ _ _ _ HO IM) as (L1 & L2 & L3 & L4).
  dif_in H E; [inversion H; subst; left; repeat split; lia|]. right. split; [lia|].
  apply bind_ok in H. destruct H as (wts & WT & H). apply bind_ok in H. destruct H as (bms & BM & H).
  destruct (cutout_list_shapes _ _ _ _ _ HO WT) as (W1 & _ & _ & W4). destruct (cutout_list_shapes _ _ _ _ _ HO BM) as (B1 & _ & _ & B4).
  destruct ims as [|im0 ims]; [unfold zlen in L1; cbn [length] in L1; lia|].
  destruct wts as [|wt0 wts]; [unfold zlen in W1; cbn [length] in W1; lia|].
  destruct bms as [|bm0 bms]; [unfold zlen in B1; cbn [length] in B1; lia|]. cbn [tl] in H. rewrite zlen_cons in L1, W1, B1.
  apply bind_ok in H. destruct H as (wts' & RJ & H). apply bind_ok in H. destruct H as (segs & SG & H).
  apply bind_ok in H. destruct H as ([st q] & F & H). cbn [fst snd] in H. inversion H; subst; clear H.
  assert (WS : zlen wts' = zlen wts /\ forall im, In im wts' -> sq (o_box ob) im).
  { destruct (c_reject c); [eapply reject_shapes; [exact HR|exact RJ|]|inversion RJ; subst; split; [reflexivity|]]; intros im I; apply W4; right; exact I. }
  destruct WS as (WL & WS).
  assert (BS : forall im, In im (map (imap qtrunc) bms) -> sq (o_box ob) im).
  { intros im I. apply in_map_iff in I. destruct I as (m & <- & I). destruct (B4 m (or_intror I)) as (C1 & C2 & C3).
    split; [apply imap_ok; exact C1|]. split; assumption. }
  assert (NN : zlen ims = Z.of_nat (length ims)) by reflexivity. rewrite NN in F.
  destruct (obslist_fold_r c o g err f iobj ims wts' segs (map (imap qtrunc) bms) (o_box ob)) with (p := p) (N := Z.of_nat (length ims)) (n := length ims) (st := st) (p' := p')
    as (ds & rs & D1 & D2 & D3 & T & NU & D4 & D5); try assumption; [intros im I; apply L4; right; exact I|lia|].
  assert (LD : zlen ds = zlen ims) by (unfold zlen; lia).
  assert (FE : snd st = map d_flag ds).
  { apply list_zget_ext; [rewrite zlen_map; lia|]. intros k K. rewrite D5, zget_map by lia. destruct (zget_range_Some ds k) as (d & ->); [lia|]. reflexivity. }
  exists ims, wts', (map (imap qtrunc) bms), ds, rs. split.
  { exists im0, wt0, bm0, wts, bms. repeat split; try assumption. destruct (c_reject c); [exact RJ|inversion RJ; reflexivity]. }
  split; [split; [exact LD|split; [exact D2|exact D3]]|]. split; [rewrite FE; reflexivity|]. split; [exact T|exact NU].
Qed.
