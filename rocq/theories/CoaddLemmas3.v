(** The list of observations, the flags and the ORed mask. *)
From Coq Require Import Lia ZifyBool ZifyNat Qabs Lqa Qfield Permutation.
From Verif Require Import Base BaseLemmas Img ImgLemmas Types Reader BoundsM MakerLayout MakerWrite Composite Coadd
  SpecTiles SpecFile SpecComposite SpecCoadd ReadLemmas CalibLemmas CompositeLemmas OutlierLemmas CoaddLemmas CoaddLemmas2.
Open Scope Z_scope.

Notation sq := square_of.

Lemma cutout_list_shapes f iobj t l ob : zget (m_cat f) iobj = Some ob -> get_cutout_list f iobj t = Ok l ->
  zlen l = o_ncut ob /\ 0 < o_ncut ob /\ 0 < o_box ob /\ forall im, In im l -> sq (o_box ob) im.
Proof.
  intros HO H. unfold get_cutout_list in H. apply bind_ok in H. destruct H as (mos & M & H). unfold get_mosaic in M.
  apply bind_ok in M. destruct M as (o & O & M). unfold check_indices in O. dif_in O E1; [discriminate|].
  apply bind_ok in O. destruct O as (o' & O' & O). dif_in O E2; [discriminate|]. inversion O; subst o'; clear O.
  apply py_index_ok_nonneg in O'; [|apply zget_Some_range in HO; lia]. rewrite HO in O'. inversion O'; subst o; clear O'.
  apply bind_ok in M. destruct M as (s & _ & M). apply bind_ok in M. destruct M as (m & _ & M). apply bind_ok in M. destruct M as (mf & SL & M).
  apply slice_ok in SL. destruct SL as (S1 & S2 & S3 & _). apply reshape_ok in M. destruct M as (-> & OK).
  destruct OK as (OK1 & OK2 & OK3). cbn [nr nc dat] in *.
  assert (B : 0 < o_box ob) by nia. assert (N : 0 < o_ncut ob) by nia.
  destruct (split_mosaic_eq (mkImg (o_ncut ob * o_box ob) (o_box ob) mf) (o_box ob) (o_ncut ob)) as (l' & L1 & L2 & L3);
    try reflexivity; try lia; [split; [exact OK1|split; [exact OK2|exact OK3]]|].
  rewrite H in L1. inversion L1; subst l'. split; [exact L2|]. split; [exact N|]. split; [exact B|].
  intros im I. apply In_zget in I. destruct I as (k & K). pose proof (zget_Some_range _ _ _ K) as R.
  destruct (L3 k) as (im' & I1 & I2 & I3 & I4 & _); [lia|]. rewrite K in I1. inversion I1; subst im'. repeat split; try assumption; apply I2.
Qed.

Lemma decided_shapes c b w m w' m' : sq b w -> sq b m -> decided_on c w m w' m' -> sq b w' /\ sq b m'.
Proof.
  intros (W1 & W2 & W3) (M1 & M2 & M3) H. unfold decided_on in H. destruct (c_symmetrize c).
  - destruct H as ((A1 & A2 & A3 & _) & (B1 & B2 & B3 & _)). split; (split; [assumption|split; lia]).
  - destruct H as (-> & ->). split; (split; [assumption|split; assumption]).
Qed.

Lemma Forall2_len {A B} (R : A -> B -> Prop) l l' : Forall2 R l l' -> length l = length l'.
Proof. induction 1; cbn [length]; congruence. Qed.

Lemma zget_snoc {A} (l : list A) a k : zget (l ++ [a]) k = if k =? zlen l then Some a else zget l k.
Proof.
  rewrite zget_app. dif E.
  - dif E2; [lia|reflexivity].
  - dif E2; [replace (k - zlen l) with 0 by lia; reflexivity|]. transitivity (@None A); [|symmetry]; apply zget_None; unfold zlen; cbn [length]; unfold zlen in E, E2; lia.
Qed.

Lemma zrange_S n : zrange (Z.of_nat (S n)) = zrange (Z.of_nat n) ++ [Z.of_nat n].
Proof. unfold zrange. rewrite !Nat2Z.id. rewrite seq_S, map_app. reflexivity. Qed.

Lemma filter_snoc {A} (p : A -> bool) l a : filter p (l ++ [a]) = filter p l ++ (if p a then [a] else []).
Proof. rewrite filter_app. reflexivity. Qed.

Section Fold.
Variables (c : cconf) (o : oracle) (f : medsfile) (iobj : Z).
Variables (ims wts segs : list (img Q)) (bms : list (img Z)) (b : Z).
Hypothesis HI : forall im, In im ims -> sq b im.
Hypothesis HW : forall im, In im wts -> sq b im.
Hypothesis HB : forall im, In im bms -> sq b im.

Definition dec_ok (k : Z) (d : decision) : Prop :=
  exists w m, zget ims k = Some (d_im d) /\ zget wts k = Some w /\ zget bms k = Some m /\
    decided_on c w m (d_wt d) (d_bm d) /\ first_reason c (d_wt d) (d_bm d) (d_flag d).
Definition obs_of (d : decision) (ob : obs) : Prop :=
  ob_bmask ob = d_bm d /\
  repaired (total_mask (c_bmask_flags c)) (d_im d) (d_wt d) (d_bm d) (ob_image ob) (ob_weight ob) (ob_noise ob) (ob_ninterp ob).

Lemma first_reason_flag w m fl : first_reason c w m fl -> fl = 0 \/ fl = 2 \/ fl = 4 \/ fl = 8 \/ fl = 16 \/ fl = 32.
Proof. unfold first_reason. tauto. Qed.

Lemma step_ok st k st' : 0 <= k -> zget (snd st) k = Some 0 ->
  obslist_step c o f iobj ims wts segs bms st k = Ok st' ->
  exists d, dec_ok k d /\ zlen (snd st') = zlen (snd st) /\
    (forall j, zget (snd st') j = if j =? k then Some (d_flag d) else zget (snd st) j) /\
    if d_flag d =? 0 then exists ob, fst st' = fst st ++ [ob] /\ obs_of d ob else fst st' = fst st.
Proof.
  intros HK HZ H. unfold obslist_step in H.
  apply bind_ok in H. destruct H as (im & IM & H). apply bind_ok in H. destruct H as (w & WT & H).
  apply bind_ok in H. destruct H as (seg & _ & H). apply bind_ok in H. destruct H as (m & BM & H).
  apply bind_ok in H. destruct H as (w' & W' & H). apply bind_ok in H. destruct H as (m' & M' & H).
  apply bind_ok in H. destruct H as (fl & FL & H).
  apply py_index_ok_nonneg in IM; [|exact HK]. apply py_index_ok_nonneg in WT; [|exact HK]. apply py_index_ok_nonneg in BM; [|exact HK].
  pose proof (HI _ (zget_In _ _ _ IM)) as SI. pose proof (HW _ (zget_In _ _ _ WT)) as SW. pose proof (HB _ (zget_In _ _ _ BM)) as SB.
  assert (DO : decided_on c w m w' m').
  { unfold decided_on. destruct (c_symmetrize c).
    - destruct SW as (S1 & S2 & S3), SB as (T1 & T2 & T3). split; [apply symmetrize_weight_ok in W'; [apply W'|exact S1]|].
      apply symmetrize_bmask_ok in M'; [exact M'|exact T1|lia].
    - inversion W'; inversion M'; split; congruence. }
  destruct (decided_shapes _ _ _ _ _ _ SW SB DO) as ((S1 & S2 & S3) & (T1 & T2 & T3)).
  assert (FR : first_reason c w' m' fl) by (apply cutout_flag_spec; try assumption; lia).
  exists (mkDec im w' m' fl). cbn [d_flag]. split.
  { exists w, m. cbn [d_im d_wt d_bm d_flag]. repeat split; assumption. }
  dif_in H E.
  - replace (fl =? 0) with false by lia. apply bind_ok in H. destruct H as (imf & MO & H). inversion H; subst; clear H. cbn [fst snd].
    unfold modify in MO. unfold zget in HZ. destruct (k <? 0) eqn:EK; [lia|]. rewrite HZ in MO. inversion MO; subst; clear MO.
    assert (RL : 0 <= k < zlen (snd st)) by (apply (zget_Some_range _ _ 0); unfold zget; rewrite EK; exact HZ).
    split; [unfold zlen; rewrite upd_length; reflexivity|]. split; [|reflexivity].
    intros j. rewrite zget_upd by exact RL. reflexivity.
  - assert (F0 : fl = 0) by lia. subst fl. cbn [Z.eqb]. apply bind_ok in H. destruct H as (j & _ & H). apply bind_ok in H. destruct H as (psf & _ & H).
    apply bind_ok in H. destruct H as ([[[im' wt'] noise] n] & IN & H). inversion H; subst; clear H. cbn [fst snd].
    split; [reflexivity|]. split; [intros j'; dif E2; [replace j' with k by lia; exact HZ|reflexivity]|].
    eexists. split; [reflexivity|]. split; [reflexivity|]. cbn [d_im d_wt d_bm ob_image ob_weight ob_noise ob_ninterp].
    destruct SI as (I1 & I2 & I3). eapply interp_spec; [exact I1|exact S1|exact T1|lia|lia|exact IN].
Qed.

Lemma obslist_fold N : forall n st, Z.of_nat n <= N ->
  foldM (obslist_step c o f iobj ims wts segs bms) (zrange (Z.of_nat n)) ([], map (fun _ => 0) (zrange N)) = Ok st ->
  exists ds, length ds = n /\ (forall k d, zget ds k = Some d -> dec_ok k d) /\
    Forall2 obs_of (filter (fun d => d_flag d =? 0) ds) (fst st) /\
    zlen (snd st) = N /\
    forall k, 0 <= k < N -> zget (snd st) k = match zget ds k with Some d => Some (d_flag d) | None => Some 0 end.
Proof.
  induction n as [|n IH]; intros st L H.
  - inversion H; subst; clear H. exists []. split; [reflexivity|]. split; [intros k d Z; apply zget_Some_range in Z; unfold zlen in Z; cbn [length] in Z; lia|].
    split; [constructor|]. cbn [fst snd]. split; [rewrite zlen_map, zlen_zrange; lia|].
    intros k K. rewrite zget_map, zget_zrange by lia. replace (zget (@nil decision) k) with (@None decision); [reflexivity|].
    symmetry. apply zget_None. unfold zlen; cbn [length]; lia.
  - rewrite zrange_S, foldM_app in H. apply bind_ok in H. destruct H as (st0 & H0 & H).
    destruct (IH st0) as (ds & D1 & D2 & D3 & D4 & D5); [lia|exact H0|].
    cbn [foldM] in H. apply bind_ok in H. destruct H as (st1 & H & E). inversion E; subst st1; clear E.
    assert (LD : zlen ds = Z.of_nat n) by (unfold zlen; lia).
    apply step_ok in H; [|lia|].
    2:{ rewrite D5 by lia. replace (zget ds (Z.of_nat n)) with (@None decision); [reflexivity|]. symmetry. apply zget_None. lia. }
    destruct H as (d & E1 & E2 & E3 & E4). exists (ds ++ [d]). split; [rewrite app_length; cbn [length]; lia|]. split.
    { intros k x. rewrite zget_snoc. dif E; [|apply D2]. intros X; inversion X; subst x. replace k with (Z.of_nat n) by lia. exact E1. }
    split.
    { rewrite filter_snoc. destruct (d_flag d =? 0).
      - destruct E4 as (ob & -> & O). apply Forall2_app; [exact D3|]. constructor; [exact O|constructor].
      - rewrite E4, app_nil_r. exact D3. }
    split; [lia|]. intros k K. rewrite E3, zget_snoc, LD. dif E; [reflexivity|]. apply D5. exact K.
Qed.
End Fold.

Lemma reject_shapes o b ims wts wts' : reject_keeps_shapes o -> or_reject o ims wts = Ok wts' -> (forall im, In im wts -> sq b im) ->
  zlen wts' = zlen wts /\ forall im, In im wts' -> sq b im.
Proof.
  intros R H HS. assert (OKS : Forall img_ok wts) by (apply Forall_forall; intros im I; apply (HS im I)). specialize (R _ _ _ OKS H). clear H OKS. induction R as [|w w' l l' (A1 & A2 & A3) F IH]; [split; [reflexivity|intros ? []]|].
  destruct IH as (L & IH); [intros; apply HS; right; assumption|]. split; [rewrite !zlen_cons; lia|].
  destruct (HS w (or_introl eq_refl)) as (B1 & B2 & B3).
  intros im [<-|I]; [split; [exact A1|split; lia]|apply IH; exact I].
Qed.

Lemma zeros_filter ds : zeros (map d_flag ds) = zlen (filter (fun d => d_flag d =? 0) ds).
Proof. unfold zeros. induction ds as [|d ds IH]; [reflexivity|]. cbn [map filter]. destruct (d_flag d =? 0); rewrite ?zlen_cons; lia. Qed.

Lemma get_obslist_spec c o f iobj ob obslist fl : reject_keeps_shapes o -> zget (m_cat f) iobj = Some ob ->
  get_obslist c o f iobj = Ok (obslist, fl) ->
  (o_ncut ob = 1 /\ obslist = [] /\ fl = None) \/
  (1 < o_ncut ob /\ exists ims wts bms ds, epoch_maps c o f iobj ims wts bms /\ decided c ims wts bms ds obslist /\
     fl = Some (map d_flag ds) /\ zlen ds = o_ncut ob - 1 /\ zlen obslist = zeros (map d_flag ds) /\
     forall d, In d ds -> sq (o_box ob) (d_wt d) /\ sq (o_box ob) (d_bm d)).
Proof.
  intros HR HO H. unfold get_obslist in H. apply bind_ok in H. destruct H as (ims & IM & H).
  destruct (cutout_list_shapes _ _ _ _ _ HO IM) as (L1 & L2 & L3 & L4).
  dif_in H E; [inversion H; subst; left; repeat split; lia|]. right. split; [lia|].
  apply bind_ok in H. destruct H as (wts & WT & H). apply bind_ok in H. destruct H as (bms & BM & H).
  destruct (cutout_list_shapes _ _ _ _ _ HO WT) as (W1 & _ & _ & W4). destruct (cutout_list_shapes _ _ _ _ _ HO BM) as (B1 & _ & _ & B4).
  destruct ims as [|im0 ims]; [unfold zlen in L1; cbn [length] in L1; lia|].
  destruct wts as [|wt0 wts]; [unfold zlen in W1; cbn [length] in W1; lia|].
  destruct bms as [|bm0 bms]; [unfold zlen in B1; cbn [length] in B1; lia|]. cbn [tl] in H. rewrite zlen_cons in L1, W1, B1.
  apply bind_ok in H. destruct H as (wts' & RJ & H). apply bind_ok in H. destruct H as (segs & SG & H).
  apply bind_ok in H. destruct H as (st & F & H). inversion H; subst; clear H.
  assert (WS : zlen wts' = zlen wts /\ forall im, In im wts' -> sq (o_box ob) im).
  { destruct (c_reject c); [eapply reject_shapes; [exact HR|exact RJ|]|inversion RJ; subst; split; [reflexivity|]]; intros im I; apply W4; right; exact I. }
  destruct WS as (WL & WS).
  assert (BS : forall im, In im (map (imap qtrunc) bms) -> sq (o_box ob) im).
  { intros im I. apply in_map_iff in I. destruct I as (m & <- & I). destruct (B4 m (or_intror I)) as (C1 & C2 & C3).
    split; [apply imap_ok; exact C1|]. split; assumption. }
  assert (NN : zlen ims = Z.of_nat (length ims)) by reflexivity. rewrite NN in F.
  destruct (obslist_fold c o f iobj ims wts' segs (map (imap qtrunc) bms) (o_box ob)) with (N := Z.of_nat (length ims)) (n := length ims) (st := st)
    as (ds & D1 & D2 & D3 & D4 & D5); try assumption; [intros im I; apply L4; right; exact I|lia|].
  assert (LD : zlen ds = zlen ims) by (unfold zlen; lia).
  assert (FE : snd st = map d_flag ds).
  { apply list_zget_ext; [rewrite zlen_map; lia|]. intros k K. rewrite D5, zget_map by lia. destruct (zget_range_Some ds k) as (d & ->); [lia|]. reflexivity. }
  exists ims, wts', (map (imap qtrunc) bms), ds. split.
  { exists im0, wt0, bm0, wts, bms. repeat split; try assumption. destruct (c_reject c); [exact RJ|inversion RJ; reflexivity]. }
  split; [split; [exact LD|split; [exact D2|exact D3]]|]. split; [rewrite FE; reflexivity|]. split; [lia|]. split.
  { rewrite zeros_filter. unfold zlen. f_equal. symmetry. eapply Forall2_len. exact D3. }
  intros d I. apply In_zget in I. destruct I as (k & K). destruct (D2 k d K) as (w & m & X1 & X2 & X3 & X4 & _).
  apply (decided_shapes c (o_box ob) w m (d_wt d) (d_bm d)) in X4; [exact X4| |].
  - apply WS. eapply zget_In. exact X2.
  - apply BS. eapply zget_In. exact X3.
Qed.

Lemma lor_fold b : forall (ms : list (img Z)) m0 m, sq b m0 -> (forall m, In m ms -> sq b m) ->
  foldM img_lor ms m0 = Ok m ->
  sq b m /\ forall r k, 0 <= r < b -> 0 <= k < b ->
    exists v v0, px m r k = Some v /\ px m0 r k = Some v0 /\
      forall i, Z.testbit v i = true <-> Z.testbit v0 i = true \/ exists x u, In x ms /\ px x r k = Some u /\ Z.testbit u i = true.
Proof.
  induction ms as [|x ms IH]; intros m0 m S0 SM H.
  - inversion H; subst. split; [exact S0|]. destruct S0 as (A1 & A2 & A3). intros r k R K. destruct (px_in m r k A1) as (v & P); [lia|lia|].
    exists v, v. split; [exact P|]. split; [exact P|]. intros i. split; [tauto|]. intros [X|(x & u & [] & _)]. exact X.
  - cbn [foldM] in H. apply bind_ok in H. destruct H as (m1 & Z & H). unfold img_lor in Z.
    destruct S0 as (A1 & A2 & A3). destruct (SM x (or_introl eq_refl)) as (X1 & X2 & X3).
    apply img_zip_ok in Z; [|exact A1|exact X1]. destruct Z as (_ & _ & Z3 & Z4 & Z5 & Z6).
    destruct (IH m1 m) as (I1 & I2); [split; [exact Z3|split; lia]|intros; apply SM; right; assumption|exact H|].
    split; [exact I1|]. intros r k R K. destruct (I2 r k R K) as (v & v1 & P & P1 & B). rewrite Z6 in P1.
    destruct (px_in m0 r k A1) as (v0 & P0); [lia|lia|]. destruct (px_in x r k X1) as (u & Pu); [lia|lia|]. rewrite P0, Pu in P1. inversion P1; subst v1.
    exists v, v0. split; [exact P|]. split; [exact P0|]. intros i. rewrite B, Z.lor_spec, orb_true_iff. split.
    + intros [[T|T]|(y & t & Y1 & Y2 & Y3)]; [left; exact T|right; exists x, u; split; [left; reflexivity|split; assumption]|right; exists y, t; split; [right; exact Y1|split; assumption]].
    + intros [T|(y & t & [<-|Y1] & Y2 & Y3)]; [left; left; exact T|left; right; congruence|right; exists y, t; split; [exact Y1|split; assumption]].
Qed.

Lemma get_coadd_obs_spec c o f jm iobj ob r flags : reject_keeps_shapes o -> zget (m_cat f) iobj = Some ob ->
  get_coadd_obs c o f jm iobj = Ok (r, flags) ->
  (o_ncut ob = 1 /\ r = None /\ flags = 1) \/
  (1 < o_ncut ob /\ exists ims wts bms ds obslist, epoch_maps c o f iobj ims wts bms /\ decided c ims wts bms ds obslist /\
     zlen ds = o_ncut ob - 1 /\
     match r with
     | None => zeros (map d_flag ds) = 0 /\ flags = 1
     | Some co => 0 < zeros (map d_flag ds) /\ flags = 0 /\ co_ncoadd co = zeros (map d_flag ds) /\ co_imflags co = map d_flag ds /\
         sq (o_box ob) (co_bmask co) /\ sq (o_box ob) (co_ormask co) /\
         (forall p q v, px (co_bmask co) p q = Some v -> v = 0) /\
         forall p q, 0 <= p < o_box ob -> 0 <= q < o_box ob ->
           exists v, px (co_ormask co) p q = Some v /\
             forall i, Z.testbit v i = true <->
               exists d u, In d ds /\ d_flag d = 0 /\ px (d_bm d) p q = Some u /\ Z.testbit u i = true
     end).
Proof.
  intros HR HO H. unfold get_coadd_obs in H. apply bind_ok in H. destruct H as ([obslist fl] & GL & H).
  apply (get_obslist_spec c o f iobj ob) in GL; [|exact HR|exact HO].
  destruct GL as [(N & -> & ->)|(N & ims & wts & bms & ds & E1 & E2 & -> & E4 & E5 & E6)].
  - left. inversion H; subst. repeat split. exact N.
  - right. split; [exact N|]. exists ims, wts, bms, ds, obslist. split; [exact E1|]. split; [exact E2|]. split; [exact E4|].
    destruct obslist as [|ob0 obs'].
    + inversion H; subst. split; [rewrite <- E5; reflexivity|reflexivity].
    + set (L := ob0 :: obs') in *. set (z0 := imap (fun b => b * 0) (ob_bmask ob0)) in *.
      apply bind_ok in H. destruct H as (orm & OR & H). apply bind_ok in H. destruct H as ([[[[[[im wt] noise] jac] psf] prow] pcol] & _ & H).
      apply bind_ok in H. destruct H as (seg & _ & H). cbn [bind] in H. inversion H; subst; clear H.
      cbn [co_ncoadd co_imflags co_bmask co_ormask].
      destruct E2 as (_ & _ & F2).
      assert (MB : map ob_bmask L = map d_bm (filter (fun d => d_flag d =? 0) ds)).
      { clear -F2. induction F2 as [|d x l l' (H & _) F IH]; [reflexivity|]. cbn [map]. rewrite H, IH. reflexivity. }
      assert (SL : forall m, In m (map ob_bmask L) -> sq (o_box ob) m).
      { intros m I. rewrite MB in I. apply in_map_iff in I. destruct I as (d & <- & I). apply filter_In in I. apply (E6 d). apply I. }
      assert (S0 : sq (o_box ob) (ob_bmask ob0)) by (apply SL; left; reflexivity).
      assert (SZ : sq (o_box ob) z0).
      { destruct S0 as (A1 & A2 & A3). split; [apply imap_ok; exact A1|]. split; assumption. }
      assert (ZZ : forall p q v, px z0 p q = Some v -> v = 0).
      { intros p q v P. unfold z0 in P. rewrite px_imap in P. destruct (px (ob_bmask ob0) p q); inversion P. lia. }
      assert (OR' : foldM img_lor (map ob_bmask L) z0 = Ok orm) by (rewrite foldM_map; exact OR).
      apply (lor_fold (o_box ob)) in OR'; [|exact SZ|exact SL]. destruct OR' as (SO & PO).
      split; [rewrite <- E5; unfold L; rewrite zlen_cons; pose proof (zlen_nonneg obs'); lia|]. split; [reflexivity|]. split; [exact E5|]. split; [reflexivity|].
      split; [exact SZ|]. split; [exact SO|]. split; [exact ZZ|].
      intros p q Rp Rq. destruct (PO p q Rp Rq) as (v & v0 & P & P0 & B). exists v. split; [exact P|]. intros i. rewrite B.
      apply ZZ in P0. subst v0. rewrite Z.bits_0. split.
      * intros [X|(x & u & X1 & X2 & X3)]; [discriminate|]. rewrite MB in X1. apply in_map_iff in X1. destruct X1 as (d & <- & X1).
        apply filter_In in X1. destruct X1 as (X1 & X4). exists d, u. repeat split; try assumption. lia.
      * intros (d & u & X1 & X2 & X3 & X4). right. exists (d_bm d), u. split; [|split; assumption]. rewrite MB. apply in_map_iff.
        exists d. split; [reflexivity|]. apply filter_In. split; [exact X1|lia].
Qed.
