(** Writing coadds of any list of indices. *)
From Coq Require Import Lia ZifyBool ZifyNat.
From Verif Require Import Base BaseLemmas Img ImgLemmas Types Reader BoundsM MakerLayout MakerWrite Composite Coadd CoaddRange
  SpecTiles SpecFile SpecComposite SpecCoadd SpecCoaddRange ReadLemmas FileLemmas CoaddLemmas CoaddLemmas2 CoaddLemmas3 CoaddLemmas5 CoaddLemmas6 CoaddLemmas8 FromEndLemmas.
Open Scope Z_scope.

Lemma row_of_nonneg n i : 0 <= i -> row_of n i = i.
Proof. intros I. unfold row_of. destruct (i <? 0) eqn:E; [lia|reflexivity]. Qed.
Lemma row_of_means n i : - n <= i < n -> means n i (row_of n i).
Proof. intros I. unfold means, row_of. destruct (i <? 0) eqn:E; lia. Qed.
Lemma means_row n i j : means n i j -> row_of n i = j.
Proof. unfold means, row_of. intros (J & [-> | ->]); [destruct (j <? 0) eqn:E|destruct (j - n <? 0) eqn:E]; lia. Qed.

Lemma refill r0 co fl a b r1 s p : filled_row r0 co fl a b = Ok r1 -> filled_row r1 co fl s p = filled_row r0 co fl s p.
Proof.
  unfold filled_row. intros H. apply bind_ok in H. destruct H as (l & L & H). destruct (o_slots (cr_obj r0)) as [|sl rest]; [discriminate|]. injection H as <-.
  cbn [cr_orig_flags cr_obj o_slots o_id o_number o_box o_ra o_dec o_color o_wcs_color o_psf_color o_psf_nr o_psf_nc cr_orig_ncutout].
  assert (E : set_prefix l (co_imflags co) = set_prefix (cr_orig_flags r0) (co_imflags co)); [|rewrite E; reflexivity].
  rewrite L. unfold set_prefix in *. dif_in L X; [|discriminate]. injection L as <-.
  replace (zlen (co_imflags co) <=? zlen (co_imflags co ++ skipn (length (co_imflags co)) (cr_orig_flags r0))) with true.
  - f_equal. rewrite skipn_app, Nat.sub_diag, skipn_all. reflexivity.
  - unfold zlen. rewrite app_length. lia.
Qed.
Lemma refail r fl : failed_row (failed_row r fl) fl = failed_row r fl.
Proof. reflexivity. Qed.

Section Any.
  Variables (f : medsfile) (types : list ctype) (coadder : Z -> res (option cobs * Z)) (rows0 : list crow).
  Hypothesis HS : stamp_shapes f coadder.
  Hypothesis HW : counts_from_end f coadder.
  Hypothesis R0 : Forall2 (fun o r => o_box (cr_obj r) = o_box o /\ o_ncut (cr_obj r) = 0 /\ cr_ncoadd r = 0 /\ cr_coadd_flags r = 0 /\ zlen (o_slots (cr_obj r)) = 2) (m_cat f) rows0.

  (** The coadd [co] is in the file at [s] and [p]. *)
  Definition held (ext : list (ctype * list Q)) (psf : list Q) (E PE : Z) (co : cobs) (s p : Z) : Prop :=
    0 <= s /\ s + nr (co_image co) ^ 2 <= E /\ 0 <= p /\ p + nr (co_psf co) ^ 2 <= PE /\
    (forall t, In t types -> exists m, ext_find ext t = Some m /\ forall i, 0 <= i < zlen (coadd_data co t) -> zget m (s + i) = zget (coadd_data co t) i) /\
    forall i, 0 <= i < zlen (dat (co_psf co)) -> zget psf (p + i) = zget (dat (co_psf co)) i.

  Record Wrote (is : list Z) (st : wstate) : Prop := mkWrote {
    w_range : forall i, In i is -> - zlen rows0 <= i < zlen rows0;
    w_len : zlen (ws_rows st) = zlen rows0;
    w_rows : forall j r0, zget rows0 j = Some r0 -> exists r, zget (ws_rows st) j = Some r /\
      (((forall i, In i is -> ~ means (zlen rows0) i j) /\ r = r0) \/
       ((exists i, In i is /\ means (zlen rows0) i j) /\ exists x fl, coadder j = Ok (x, fl) /\
          match x with
          | None => r = failed_row r0 fl
          | Some co => o_box (cr_obj r0) = nr (co_image co) /\ exists s p, filled_row r0 co fl s p = Ok r /\
              held (ws_ext st) (ws_psf st) (ws_row_start st + ws_size st) (ws_psf_row_start st + ws_psf_size st) co s p
          end));
    w_start : 0 <= ws_row_start st + ws_size st;
    w_pstart : 0 <= ws_psf_row_start st + ws_psf_size st;
    w_ext : forall t, In t types -> exists m, ext_find (ws_ext st) t = Some m }.

  Lemma len0 : zlen rows0 = zlen (m_cat f).
  Proof. exact (rows0_len f rows0 R0). Qed.
  Lemma coadder_means i j : means (zlen rows0) i j -> coadder i = coadder j.
  Proof. intros (J & [-> | ->]); [reflexivity|]. rewrite len0 in *. apply HW. exact J. Qed.
  Lemma means_inj i j k : means (zlen rows0) i j -> means (zlen rows0) i k -> j = k.
  Proof. intros A B. rewrite <- (means_row _ _ _ A). apply means_row. exact B. Qed.

  Lemma shape_of j co fl r0 t : coadder j = Ok (Some co, fl) -> zget rows0 j = Some r0 ->
    zlen (coadd_data co t) = nr (co_image co) ^ 2 /\ zlen (dat (co_psf co)) = nr (co_psf co) ^ 2 /\ 0 <= nr (co_image co) /\ 0 <= nr (co_psf co).
  Proof.
    intros C Z. destruct (rows0_get f rows0 R0 j r0 Z) as (o & O & _). destruct (HS _ _ _ _ O C) as (BP & PL & (K1 & K2 & L) & _ & N).
    rewrite plane_data. destruct (PL t) as ((_ & _ & L') & N1 & N2). destruct (PL TImage) as (_ & M1 & _). cbn [coadd_plane] in M1.
    split; [rewrite L', N1, N2, M1; ring|]. split; [rewrite L, N; ring|]. split; [lia|exact K1].
  Qed.

  Lemma any_step is st i st' : Wrote is st -> write_object_any types coadder st i = Ok st' -> Wrote (is ++ [i]) st'.
  Proof.
    intros [W1 W2 W3 W4 W5 W6] H. unfold write_object_any in H. apply bind_ok in H. destruct H as ([x fl] & C & H). apply bind_ok in H. destruct H as (r & R & H). cbv zeta in H.
    pose proof (py_ok_range _ _ _ R) as RG. rewrite W2 in RG, H. pose proof (row_of_means _ _ RG) as MJ. set (j := row_of (zlen rows0) i) in *.
    assert (ZR : zget (ws_rows st) j = Some r). { unfold py_index in R. rewrite W2 in R. fold (row_of (zlen rows0) i) in R. fold j in R. destruct (zget (ws_rows st) j); [congruence|discriminate]. }
    assert (JR : 0 <= j < zlen (ws_rows st)) by (rewrite W2; apply MJ). destruct (zget_range_Some rows0 j) as (r0 & Z0); [rewrite <- W2; exact JR|].
    rewrite (coadder_means i j MJ) in C. destruct (W3 j r0 Z0) as (r1 & Z1 & D). rewrite ZR in Z1. injection Z1 as <-.
    assert (RNG : forall k, In k (is ++ [i]) -> - zlen rows0 <= k < zlen rows0).
    { intros k K. apply in_app_or in K. destruct K as [K|[<-|[]]]; [apply W1; exact K|exact RG]. }
    assert (NJ : forall k, (exists i0, In i0 (is ++ [i]) /\ means (zlen rows0) i0 k) -> k <> j -> exists i0, In i0 is /\ means (zlen rows0) i0 k).
    { intros k (i0 & I & M) N. apply in_app_or in I. destruct I as [I|[<-|[]]]; [exists i0; auto|]. destruct N. exact (means_inj _ _ _ M MJ). }
    assert (YJ : exists i0, In i0 (is ++ [i]) /\ means (zlen rows0) i0 j) by (exists i; split; [apply in_or_app; right; left; reflexivity|exact MJ]).
    assert (UP : forall k, (exists i0, In i0 is /\ means (zlen rows0) i0 k) -> exists i0, In i0 (is ++ [i]) /\ means (zlen rows0) i0 k).
    { intros k (i0 & I & M). exists i0. split; [apply in_or_app; left; exact I|exact M]. }
    assert (NO : forall k, k <> j -> (forall i0, In i0 is -> ~ means (zlen rows0) i0 k) -> forall i0, In i0 (is ++ [i]) -> ~ means (zlen rows0) i0 k).
    { intros k N G i0 I M. apply in_app_or in I. destruct I as [I|[<-|[]]]; [exact (G i0 I M)|]. destruct N. exact (means_inj _ _ _ M MJ). }
    destruct x as [co|].
    - dif_in H E; [discriminate|]. apply bind_ok in H. destruct H as (r' & FR & H). apply bind_ok in H. destruct H as (ext & WE & H).
      apply bind_ok in H. destruct H as (psf & WP & H). injection H as <-.
      set (SE := ws_row_start st + ws_size st) in *. set (PE := ws_psf_row_start st + ws_psf_size st) in *.
      apply write_types_ok in WE. destruct WE as (_ & WE). apply write_at_ok in WP. destruct WP as (P1 & P2 & P3 & P4).
      assert (F0 : o_box (cr_obj r0) = nr (co_image co) /\ filled_row r0 co fl SE PE = Ok r').
      { destruct D as [[_ ->]|[_ (x & fl' & C' & D)]]; [split; [lia|exact FR]|]. rewrite C in C'. injection C' as <- <-. destruct D as (B & s & p & FR0 & _). split; [exact B|].
        rewrite <- (refill _ _ _ _ _ _ SE PE FR0). exact FR. }
      destruct F0 as (B0 & F0). assert (BR : o_box (cr_obj r) = nr (co_image co)) by lia.
      constructor; cbn [ws_rows ws_row_start ws_size ws_psf_row_start ws_psf_size ws_ext ws_psf]; rewrite ?BR.
      + exact RNG.
      + unfold zlen in *. rewrite upd_length. exact W2.
      + intros k q Q. rewrite CoaddLemmas2.zget_upd by exact JR. destruct (k =? j) eqn:EK.
        * assert (k = j) by lia. subst k. rewrite Z0 in Q. injection Q as <-. exists r'. split; [reflexivity|]. right. split; [exact YJ|].
          exists (Some co), fl. split; [exact C|]. split; [exact B0|]. exists SE, PE. split; [exact F0|].
          destruct (shape_of j co fl r0 TImage C Z0) as (_ & LP & _). unfold held. split; [exact W4|]. split; [lia|]. split; [exact W5|]. split; [lia|]. split.
          -- intros t T. destruct (W6 t T) as (m & M). destruct (WE t m M) as (m' & N1 & N2 & N3 & _). exists m'. split; [exact N1|]. intros n Hn. rewrite (N3 T). dif X; [|lia]. f_equal. lia.
          -- intros n Hn. rewrite P4. dif X; [|lia]. f_equal. lia.
        * assert (KJ : k <> j) by lia. destruct (W3 k q Q) as (y & Y1 & Y2). exists y. split; [exact Y1|]. destruct Y2 as [[Y2 Y3]|[Y2 (x & fl' & C' & Y3)]]; [left; split; [apply NO; assumption|exact Y3]|].
          right. split; [apply UP; exact Y2|]. exists x, fl'. split; [exact C'|]. destruct x as [co'|]; [|exact Y3]. destruct Y3 as (B' & s & p & F' & H1 & H2 & H3 & H4 & H5 & H6).
          split; [exact B'|]. exists s, p. split; [exact F'|]. destruct (shape_of k co' fl' q TImage C' Q) as (_ & LP & N1 & N2). destruct (shape_of j co fl r0 TImage C Z0) as (_ & _ & N3 & N4).
          unfold held. split; [exact H1|]. split; [nia|]. split; [exact H3|]. split; [nia|]. split.
          -- intros t T. destruct (H5 t T) as (m & M & G). destruct (WE t m M) as (m' & M1 & M2 & M3 & _). exists m'. split; [exact M1|]. intros n Hn. rewrite (M3 T).
             destruct (shape_of k co' fl' q t C' Q) as (LT & _). dif X; [lia|]. apply G. exact Hn.
          -- intros n Hn. rewrite P4. dif X; [lia|]. apply H6. exact Hn.
      + destruct (shape_of j co fl r0 TImage C Z0) as (_ & _ & N3 & N4). nia.
      + destruct (shape_of j co fl r0 TImage C Z0) as (_ & _ & N3 & N4). nia.
      + intros t T. destruct (W6 t T) as (m & M). destruct (WE t m M) as (m' & N1 & _). exists m'. exact N1.
    - injection H as <-. constructor; cbn [ws_rows ws_row_start ws_size ws_psf_row_start ws_psf_size ws_ext ws_psf]; try assumption.
      + unfold zlen in *. rewrite upd_length. exact W2.
      + intros k q Q. rewrite CoaddLemmas2.zget_upd by exact JR. destruct (k =? j) eqn:EK.
        * assert (k = j) by lia. subst k. rewrite Z0 in Q. injection Q as <-. eexists. split; [reflexivity|]. right. split; [exact YJ|].
          exists None, fl. split; [exact C|]. destruct D as [[_ ->]|[_ (x & fl' & C' & D)]]; [reflexivity|]. rewrite C in C'. injection C' as <- <-. rewrite D. apply refail.
        * assert (KJ : k <> j) by lia. destruct (W3 k q Q) as (y & Y1 & Y2). exists y. split; [exact Y1|]. destruct Y2 as [[Y2 Y3]|[Y2 Y3]]; [left; split; [apply NO; assumption|exact Y3]|].
          right. split; [apply UP; exact Y2|exact Y3].
  Qed.

  Lemma any_fold l : forall is st st', Wrote is st -> foldM (write_object_any types coadder) l st = Ok st' -> Wrote (is ++ l) st'.
  Proof.
    induction l as [|i l IH]; intros is st st' W H; cbn [foldM] in H; [injection H as <-; rewrite app_nil_r; exact W|].
    apply bind_ok in H. destruct H as (s1 & H1 & H). replace (is ++ i :: l) with ((is ++ [i]) ++ l) by (rewrite <- app_assoc; reflexivity). eapply IH; [|exact H]. eapply any_step; eassumption.
  Qed.
  Lemma any_start total ptotal junk pjunk : Wrote [] (mkWstate rows0 (reserve types total junk) (map pjunk (zrange ptotal)) 0 0 0 0).
  Proof.
    constructor; cbn [ws_rows ws_row_start ws_size ws_psf_row_start ws_psf_size ws_ext ws_psf]; try lia.
    - intros i [].
    - intros j r0 Z. exists r0. split; [exact Z|]. left. split; [intros ? []|reflexivity].
    - intros t T. eexists. apply reserve_has. exact T.
  Qed.

  (** * What the readers see *)
  Variables (is : list Z) (st : wstate).
  Hypothesis W : Wrote is st.
  Let out : medsfile := mkMeds (map cr_obj (ws_rows st)) true PsfBoxObj (firstn 1 (m_info f)) (ws_ext st) (Some (ws_psf st)).

  Lemma any_row j co fl i : coadder j = Ok (Some co, fl) -> In i is -> means (zlen (m_cat f)) i j ->
    exists o r0 r s p, zget (m_cat f) j = Some o /\ zget rows0 j = Some r0 /\ zget (ws_rows st) j = Some r /\ o_box (cr_obj r0) = nr (co_image co) /\ filled_row r0 co fl s p = Ok r /\
      held (ws_ext st) (ws_psf st) (ws_row_start st + ws_size st) (ws_psf_row_start st + ws_psf_size st) co s p.
  Proof.
    intros C I M. destruct (zget_range_Some (m_cat f) j) as (o & O); [apply M|]. destruct (zget_range_Some rows0 j) as (r0 & Z0); [rewrite len0; apply M|].
    rewrite <- len0 in M. destruct (w_rows _ _ W j r0 Z0) as (r & Z1 & [[D _]|[_ (x & fl' & C' & D)]]); [destruct (D i I M)|]. rewrite C in C'. injection C' as <- <-.
    destruct D as (B & s & p & F & H). exists o, r0, r, s, p. auto 8.
  Qed.

  Lemma any_cutout j co fl i t : coadder j = Ok (Some co, fl) -> In i is -> means (zlen (m_cat f)) i j -> In t types -> get_cutout out j 0 t = Ok (coadd_plane co t).
  Proof.
    intros C IN ME T. destruct (any_row j co fl i C IN ME) as (o & r0 & r & st' & p & O & Z0 & Z1 & B & F & H1 & H2 & H3 & H4 & H5 & H6). destruct (filled_obj _ _ _ _ _ _ F) as (s & rest & S1 & S2 & S3 & S4 & _).
    destruct (HS j o co fl O C) as (BP & PL & _). destruct (PL t) as ((K1 & K2 & K3) & N1 & N2). destruct (PL TImage) as (_ & N3 & _). cbn [coadd_plane] in N3.
    unfold get_cutout. rewrite (check_indices_ok out j 0 (cr_obj r)).
    2:{ cbn [out m_cat]. rewrite zget_map, Z1. reflexivity. } 2:{ lia. }
    cbn [bind]. unfold get_slot. rewrite (proj2 (py_index_ok_nonneg (o_slots (cr_obj r)) 0 (filled_slot s co st' p) (Z.le_refl 0))) by (rewrite S2; reflexivity).
    cbn [bind]. change (s_start (filled_slot s co st' p)) with st'. unfold get_extension. cbn [out m_ext].
    destruct (H5 t T) as (m & M1 & M2). rewrite M1. cbn [bind].
    destruct (rows0_get f rows0 R0 j r0 Z0) as (o' & O' & BX & _). rewrite O in O'. injection O' as <-.
    assert (BB : o_box (cr_obj r) = o_box o) by lia. rewrite BB.
    assert (LD : zlen (dat (coadd_plane co t)) = o_box o * o_box o) by (rewrite K3, N1, N2; reflexivity).
    rewrite plane_data in M2.
    assert (UB : st' + o_box o * o_box o <= zlen m).
    { assert (P1 : 0 < o_box o * o_box o) by nia. pose proof (M2 (o_box o * o_box o - 1) ltac:(lia)) as EN.
      destruct (zget_range_Some (dat (coadd_plane co t)) (o_box o * o_box o - 1)) as (v & V); [lia|]. rewrite V in EN. apply zget_Some_range in EN. lia. }
    rewrite (slice_spec m (dat (coadd_plane co t))); [|lia|nia|lia|lia|intros n Hn; apply M2; lia]. cbn [bind]. unfold reshape.
    replace ((0 <=? o_box o) && (0 <=? o_box o) && (zlen (dat (coadd_plane co t)) =? o_box o * o_box o)) with true by lia.
    f_equal. destruct (coadd_plane co t) as [h w d]. cbn [nr nc dat] in *. congruence.
  Qed.

  Lemma any_psf j co fl i : coadder j = Ok (Some co, fl) -> In i is -> means (zlen (m_cat f)) i j -> get_psf out j 0 = Ok (co_psf co).
  Proof.
    intros C IN ME. destruct (any_row j co fl i C IN ME) as (o & r0 & r & st' & p & O & Z0 & Z1 & B & F & H1 & H2 & H3 & H4 & H5 & H6). destruct (filled_obj _ _ _ _ _ _ F) as (s & rest & S1 & S2 & S3 & S4 & S5 & _).
    destruct (HS j o co fl O C) as (BP & _ & (K1 & K2 & K3) & N1 & N2). unfold get_psf. cbn [out m_psf]. rewrite (check_indices_ok out j 0 (cr_obj r)).
    2:{ cbn [out m_cat]. rewrite zget_map, Z1. reflexivity. } 2:{ lia. }
    cbn [bind]. unfold get_psf_shape. cbn [out m_psf_cols bind fst snd]. rewrite S5. unfold get_slot. rewrite (proj2 (py_index_ok_nonneg (o_slots (cr_obj r)) 0 (filled_slot s co st' p) (Z.le_refl 0))) by (rewrite S2; reflexivity).
    cbn [bind]. change (s_psf_start (filled_slot s co st' p)) with p.
    set (n := nr (co_psf co)) in *. set (m := ws_psf st) in *.
    assert (LD : zlen (dat (co_psf co)) = n * n) by (rewrite K3, N2; reflexivity).
    assert (UB : p + n * n <= zlen m).
    { assert (P1 : 0 < n * n) by nia. pose proof (H6 (n * n - 1) ltac:(lia)) as EN.
      destruct (zget_range_Some (dat (co_psf co)) (n * n - 1)) as (v & V); [lia|]. rewrite V in EN. apply zget_Some_range in EN. lia. }
    rewrite (slice_spec m (dat (co_psf co))); [|lia|nia|lia|lia|intros k Hk; apply H6; lia]. cbn [bind]. unfold reshape.
    replace ((0 <=? n) && (0 <=? n) && (zlen (dat (co_psf co)) =? n * n)) with true by lia.
    f_equal. unfold n in *. destruct (co_psf co) as [h w d]. cbn [nr nc dat] in *. congruence.
  Qed.
End Any.
