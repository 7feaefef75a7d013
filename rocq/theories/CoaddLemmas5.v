(** The file of coadds. *)
From Coq Require Import Lia ZifyBool ZifyNat.
From Verif Require Import Base BaseLemmas Img ImgLemmas Types Reader BoundsM MakerLayout MakerWrite Composite Coadd
  SpecTiles SpecFile SpecComposite SpecCoadd ReadLemmas FileLemmas CoaddLemmas CoaddLemmas2 CoaddLemmas3.
Open Scope Z_scope.

Lemma zsum_app l l' : zsum (l ++ l') = zsum l + zsum l'.
Proof. unfold zsum. induction l as [|x l IH]; cbn [app fold_right]; lia. Qed.

(** Data blocks [D j] stored one after another from [S 0 = 0]. *)
Definition dlen (d : option (list Q)) : Z := match d with Some d => zlen d | None => 0 end.
Definition stored (D : Z -> option (list Q)) (S : Z -> Z) (m : list Q) (k : Z) : Prop :=
  forall j d, 0 <= j < k -> D j = Some d -> forall i, 0 <= i < zlen d -> zget m (S j + i) = zget d i.

Lemma dlen_nonneg d : 0 <= dlen d.
Proof. destruct d; cbn [dlen]; [apply zlen_nonneg|lia]. Qed.

Section Store.
Variables (D : Z -> option (list Q)) (S : Z -> Z).
Hypothesis S0 : S 0 = 0.
Hypothesis SS : forall j, 0 <= j -> S (j + 1) = S j + dlen (D j).

Lemma store_mono_nat n : forall j, 0 <= j -> S j <= S (j + Z.of_nat n).
Proof.
  induction n as [|n IH]; intros j J; [replace (j + Z.of_nat 0) with j by lia; lia|].
  replace (j + Z.of_nat (Datatypes.S n)) with ((j + Z.of_nat n) + 1) by lia. rewrite SS by lia.
  pose proof (dlen_nonneg (D (j + Z.of_nat n))). specialize (IH j J). lia.
Qed.
Lemma store_mono j k : 0 <= j <= k -> S j <= S k.
Proof. intros H. replace k with (j + Z.of_nat (Z.to_nat (k - j))) by lia. apply store_mono_nat. lia. Qed.
Lemma store_nonneg k : 0 <= k -> 0 <= S k.
Proof. intros H. rewrite <- S0. apply store_mono. lia. Qed.

Lemma store_skip m k : 0 <= k -> D k = None -> stored D S m k -> stored D S m (k + 1).
Proof. intros K E H j d J. destruct (Z.eq_dec j k) as [->|N]; [congruence|]. apply H. lia. Qed.

Lemma store_write m m' k d : 0 <= k -> D k = Some d -> stored D S m k ->
  (forall p, zget m' p = if (S k <=? p) && (p <? S k + zlen d) then zget d (p - S k) else zget m p) ->
  stored D S m' (k + 1).
Proof.
  intros K E H HM j e J EJ i I. rewrite HM. destruct (Z.eq_dec j k) as [->|N].
  - rewrite E in EJ. inversion EJ; subst e. dif X; [|lia]. f_equal. lia.
  - assert (B : S (j + 1) <= S k) by (apply store_mono; lia). rewrite SS, EJ in B by lia. cbn [dlen] in B.
    dif X; [lia|]. apply H; [lia|exact EJ|exact I].
Qed.
End Store.

Lemma write_types_ok co start : forall l ext ext', foldM (write_type co start) l ext = Ok ext' ->
  map fst ext' = map fst ext /\
  forall t m, ext_find ext t = Some m -> exists m', ext_find ext' t = Some m' /\ zlen m' = zlen m /\
    (In t l -> forall p, zget m' p = if (start <=? p) && (p <? start + zlen (coadd_data co t)) then zget (coadd_data co t) (p - start) else zget m p) /\
    (~ In t l -> m' = m).
Proof.
  induction l as [|t0 l IH]; intros ext ext' H.
  - inversion H; subst. split; [reflexivity|]. intros t m E. exists m. split; [exact E|]. split; [reflexivity|]. split; [intros []|reflexivity].
  - cbn [foldM] in H. apply bind_ok in H. destruct H as (e1 & W & H). destruct (IH _ _ H) as (F & IH').
    unfold write_type in W. destruct (ext_find ext t0) as [m0|] eqn:E0; [|discriminate]. apply bind_ok in W. destruct W as (m1 & W & X).
    inversion X; subst e1; clear X. apply write_at_ok in W. destruct W as (W1 & W2 & W3 & W4).
    rewrite ext_set_fst in F. split; [exact F|]. intros t m E.
    assert (E1 : ext_find (ext_set ext t0 m1) t = Some (if ctype_eqb t0 t then m1 else m)).
    { rewrite ext_set_find, E0. destruct (ctype_eqb t0 t); [reflexivity|exact E]. }
    destruct (IH' _ _ E1) as (m' & M1 & M2 & M3 & M4). exists m'. split; [exact M1|].
    destruct (ctype_eqb t0 t) eqn:T.
    + apply ctype_eqb_eq in T. subst t0. rewrite E in E0. inversion E0; subst m0. split; [lia|]. split; [|intros N; destruct N; left; reflexivity].
      intros _ p. destruct (in_dec ctype_eq_dec t l) as [I|I].
      * rewrite (M3 I), W4. dif A; reflexivity.
      * rewrite (M4 I), W4. reflexivity.
    + assert (NE : t0 <> t) by (intros ->; rewrite ctype_eqb_refl in T; discriminate). split; [exact M2|]. split.
      * intros [X|I]; [contradiction|]. apply M3. exact I.
      * intros N. apply M4. intros I. apply N. right. exact I.
Qed.
Lemma write_types_total co start : forall l ext,
  (forall t, In t l -> exists m, ext_find ext t = Some m /\ 0 <= start /\ start + zlen (coadd_data co t) <= zlen m) ->
  exists ext', foldM (write_type co start) l ext = Ok ext'.
Proof.
  induction l as [|t l IH]; intros ext H; [eexists; reflexivity|]. cbn [foldM].
  destruct (H t (or_introl eq_refl)) as (m & E & A & B). destruct (write_at_in_range m start (coadd_data co t) A B) as (m' & W).
  unfold write_type at 1. rewrite E, W. cbn [bind]. apply IH. intros t' I. destruct (H t' (or_intror I)) as (m2 & E2 & A2 & B2).
  apply write_at_ok in W. destruct W as (_ & _ & W3 & _). rewrite ext_set_find, E. destruct (ctype_eqb t t') eqn:T.
  - apply ctype_eqb_eq in T. subst t'. rewrite E in E2. inversion E2; subst m2. exists m'. split; [reflexivity|]. split; [exact A|]. lia.
  - exists m2. split; [exact E2|]. split; assumption.
Qed.

Lemma plane_data co t : coadd_data co t = dat (coadd_plane co t).
Proof. destruct t; reflexivity. Qed.

Section Layout.
Variables (f : medsfile) (types : list ctype) (coadder : Z -> res (option cobs * Z)) (a b : Z) (rows0 : list crow).
Hypothesis A0 : 0 <= a.
Hypothesis HS : stamp_shapes f coadder.
Hypothesis R0 : Forall2 (fun o r => o_box (cr_obj r) = o_box o /\ o_ncut (cr_obj r) = 0 /\ cr_ncoadd r = 0 /\ cr_coadd_flags r = 0 /\ zlen (o_slots (cr_obj r)) = 2) (m_cat f) rows0.

Definition co_at (j : Z) : option cobs :=
  match coadder j with
  | Ok (Some co, _) => if (a <=? j) && (j <? b) && (j <? zlen (m_cat f)) then Some co else None
  | _ => None end.
Definition cut_data (t : ctype) (j : Z) : option (list Q) := option_map (fun co => coadd_data co t) (co_at j).
Definition psf_data (j : Z) : option (list Q) := option_map (fun co => dat (co_psf co)) (co_at j).
Definition Sc (j : Z) : Z := zsum (map (fun i => match co_at i with Some co => nr (co_image co) ^ 2 | None => 0 end) (zrange j)).
Definition Sp (j : Z) : Z := zsum (map (fun i => match co_at i with Some co => nr (co_psf co) ^ 2 | None => 0 end) (zrange j)).

Lemma zrange_succ j : 0 <= j -> zrange (j + 1) = zrange j ++ [j].
Proof. intros J. replace j with (Z.of_nat (Z.to_nat j)) at 1 2 3 by lia. replace (Z.of_nat (Z.to_nat j) + 1) with (Z.of_nat (S (Z.to_nat j))) by lia. apply zrange_S. Qed.

Lemma co_at_Some j co : co_at j = Some co -> exists fl o, coadder j = Ok (Some co, fl) /\ a <= j < b /\ zget (m_cat f) j = Some o.
Proof.
  unfold co_at. destruct (coadder j) as [[[c|] fl]|]; try discriminate. dif E; [|discriminate]. intros H; inversion H; subst.
  destruct (zget_range_Some (m_cat f) j) as (o & O); [lia|]. exists fl, o. split; [reflexivity|]. split; [lia|exact O].
Qed.
Lemma co_at_intro j co fl o : coadder j = Ok (Some co, fl) -> a <= j < b -> zget (m_cat f) j = Some o -> co_at j = Some co.
Proof. intros H R O. unfold co_at. rewrite H. apply zget_Some_range in O. dif E; [reflexivity|lia]. Qed.

Lemma plane_shape j co t : co_at j = Some co -> zlen (coadd_data co t) = nr (co_image co) ^ 2.
Proof.
  intros H. destruct (co_at_Some _ _ H) as (fl & o & C & _ & O). destruct (HS _ _ _ _ O C) as (_ & P & _).
  rewrite plane_data. destruct (P t) as ((_ & _ & L) & N1 & N2). destruct (P TImage) as (_ & M1 & _). cbn [coadd_plane] in M1. rewrite L, N1, N2, M1. ring.
Qed.
Lemma psf_shape j co : co_at j = Some co -> zlen (dat (co_psf co)) = nr (co_psf co) ^ 2.
Proof.
  intros H. destruct (co_at_Some _ _ H) as (fl & o & C & _ & O). destruct (HS _ _ _ _ O C) as (_ & _ & (_ & _ & L) & _ & N). rewrite L, N. ring.
Qed.

Lemma Sc_0 : Sc 0 = 0. Proof. reflexivity. Qed.
Lemma Sp_0 : Sp 0 = 0. Proof. reflexivity. Qed.
Lemma Sc_step t j : 0 <= j -> Sc (j + 1) = Sc j + dlen (cut_data t j).
Proof.
  intros J. unfold Sc. rewrite zrange_succ by exact J. rewrite map_app, zsum_app. f_equal. cbn [map]. unfold zsum. cbn [fold_right].
  unfold cut_data. destruct (co_at j) as [co|] eqn:E; cbn [option_map dlen]; [|reflexivity]. rewrite (plane_shape j co t E). lia.
Qed.
Lemma Sp_step j : 0 <= j -> Sp (j + 1) = Sp j + dlen (psf_data j).
Proof.
  intros J. unfold Sp. rewrite zrange_succ by exact J. rewrite map_app, zsum_app. f_equal. cbn [map]. unfold zsum. cbn [fold_right].
  unfold psf_data. destruct (co_at j) as [co|] eqn:E; cbn [option_map dlen]; [|reflexivity]. rewrite (psf_shape j co E). lia.
Qed.

(** What has become of the row of object [j]. *)
Definition row_done (j : Z) (r0 r : crow) : Prop :=
  exists x fl, coadder j = Ok (x, fl) /\
    match x with
    | None => r = failed_row r0 fl
    | Some co => o_box (cr_obj r0) = nr (co_image co) /\ filled_row r0 co fl (Sc j) (Sp j) = Ok r
    end.

Record Inv (total ptotal : Z) (k : Z) (st : wstate) : Prop := mkInv {
  inv_len : zlen (ws_rows st) = zlen rows0;
  inv_rows : forall j r0, zget rows0 j = Some r0 -> exists r, zget (ws_rows st) j = Some r /\
    ((a <= j < k /\ row_done j r0 r) \/ (~ a <= j < k /\ r = r0));
  inv_start : ws_row_start st + ws_size st = Sc k;
  inv_pstart : ws_psf_row_start st + ws_psf_size st = Sp k;
  inv_ext : forall t, In t types -> exists m, ext_find (ws_ext st) t = Some m /\ zlen m = total /\ stored (cut_data t) Sc m k;
  inv_psf : zlen (ws_psf st) = ptotal /\ stored psf_data Sp (ws_psf st) k }.

Lemma rows0_len : zlen rows0 = zlen (m_cat f).
Proof. unfold zlen. f_equal. symmetry. eapply Forall2_len. exact R0. Qed.
Lemma rows0_get j r0 : zget rows0 j = Some r0 -> exists o, zget (m_cat f) j = Some o /\ o_box (cr_obj r0) = o_box o /\ o_ncut (cr_obj r0) = 0 /\
  cr_ncoadd r0 = 0 /\ cr_coadd_flags r0 = 0 /\ zlen (o_slots (cr_obj r0)) = 2.
Proof.
  assert (G : forall l l', Forall2 (fun o r => o_box (cr_obj r) = o_box o /\ o_ncut (cr_obj r) = 0 /\ cr_ncoadd r = 0 /\ cr_coadd_flags r = 0 /\ zlen (o_slots (cr_obj r)) = 2) l l' ->
    forall n r, nth_error l' n = Some r -> exists o, nth_error l n = Some o /\ o_box (cr_obj r) = o_box o /\ o_ncut (cr_obj r) = 0 /\ cr_ncoadd r = 0 /\ cr_coadd_flags r = 0 /\ zlen (o_slots (cr_obj r)) = 2).
  { induction 1 as [|o r l l' H F IH]; intros [|n] x X; cbn [nth_error] in *; try discriminate; [inversion X; subst; exists o; split; [reflexivity|exact H]|apply IH; exact X]. }
  intros H. unfold zget in *. destruct (j <? 0); [discriminate|]. eapply G; eassumption.
Qed.

Lemma step_inv total ptotal k st st' : a <= k < b -> Inv total ptotal k st ->
  write_object_cutouts types coadder st k = Ok st' -> Inv total ptotal (k + 1) st'.
Proof.
  intros K I H. destruct I as [I1 I2 I3 I4 I5 I6]. unfold write_object_cutouts in H.
  apply bind_ok in H. destruct H as ([x fl] & C & H). apply bind_ok in H. destruct H as (r & R & H).
  destruct (zget (ws_rows st) k) as [r'|] eqn:ZR; [|discriminate]. inversion R; subst r'; clear R.
  pose proof (zget_Some_range _ _ _ ZR) as RR. destruct (zget_range_Some rows0 k) as (r0 & Z0); [lia|].
  destruct (I2 k r0 Z0) as (r1 & Z1 & D). rewrite ZR in Z1. inversion Z1; subst r1; clear Z1. destruct D as [[D _]|[_ ->]]; [lia|].
  destruct (rows0_get k r0 Z0) as (o & O & BX & _).
  destruct x as [co|].
  - dif_in H E; [discriminate|]. apply bind_ok in H. destruct H as (r' & FR & H). apply bind_ok in H. destruct H as (ext & WE & H).
    apply bind_ok in H. destruct H as (psf & WP & H). inversion H; subst; clear H. rewrite I3, I4 in *.
    pose proof (co_at_intro k co fl o C K O) as CA. assert (BN : o_box (cr_obj r0) = nr (co_image co)) by lia.
    apply write_types_ok in WE. destruct WE as (WF & WE). apply write_at_ok in WP. destruct WP as (P1 & P2 & P3 & P4).
    constructor; cbn [ws_rows ws_row_start ws_size ws_psf_row_start ws_psf_size ws_ext ws_psf].
    + unfold zlen in *. rewrite upd_length. exact I1.
    + intros j q Q. rewrite zget_upd by exact RR. destruct (j =? k) eqn:EJ.
      * assert (j = k) by lia. subst j. rewrite Z0 in Q. inversion Q; subst q. exists r'. split; [reflexivity|]. left. split; [lia|].
        exists (Some co), fl. split; [exact C|]. split; [exact BN|exact FR].
      * destruct (I2 j q Q) as (y & Y1 & Y2). exists y. split; [exact Y1|]. destruct Y2 as [[Y2 Y3]|[Y2 Y3]]; [left|right]; (split; [lia|exact Y3]).
    + rewrite (Sc_step TImage) by lia. unfold cut_data. rewrite CA. cbn [option_map dlen]. rewrite (plane_shape k co TImage CA), BN. reflexivity.
    + rewrite Sp_step by lia. unfold psf_data. rewrite CA. cbn [option_map dlen]. rewrite (psf_shape k co CA). reflexivity.
    + intros t T. destruct (I5 t T) as (m & M1 & M2 & M3). destruct (WE t m M1) as (m' & N1 & N2 & N3 & _). exists m'. split; [exact N1|]. split; [lia|].
      apply (store_write (cut_data t) Sc (Sc_step t) m m' k (coadd_data co t)); [lia| |exact M3|apply N3; exact T].
      unfold cut_data. rewrite CA. reflexivity.
    + split; [lia|]. apply (store_write psf_data Sp Sp_step (ws_psf st) psf k (dat (co_psf co))); [lia| |apply I6|exact P4].
      unfold psf_data. rewrite CA. reflexivity.
  - inversion H; subst; clear H. assert (CA : co_at k = None) by (unfold co_at; rewrite C; reflexivity).
    constructor; cbn [ws_rows ws_row_start ws_size ws_psf_row_start ws_psf_size ws_ext ws_psf].
    + unfold zlen in *. rewrite upd_length. exact I1.
    + intros j q Q. rewrite zget_upd by exact RR. destruct (j =? k) eqn:EJ.
      * assert (j = k) by lia. subst j. rewrite Z0 in Q. inversion Q; subst q. eexists. split; [reflexivity|]. left. split; [lia|].
        exists None, fl. split; [exact C|reflexivity].
      * destruct (I2 j q Q) as (y & Y1 & Y2). exists y. split; [exact Y1|]. destruct Y2 as [[Y2 Y3]|[Y2 Y3]]; [left|right]; (split; [lia|exact Y3]).
    + rewrite (Sc_step TImage) by lia. unfold cut_data. rewrite CA. cbn [option_map dlen]. lia.
    + rewrite Sp_step by lia. unfold psf_data. rewrite CA. cbn [option_map dlen]. lia.
    + intros t T. destruct (I5 t T) as (m & M1 & M2 & M3). exists m. split; [exact M1|]. split; [exact M2|]. apply (store_skip (cut_data t) Sc (Sc_step t) m k); [lia|unfold cut_data; rewrite CA; reflexivity|exact M3].
    + split; [apply I6|]. apply (store_skip psf_data Sp Sp_step (ws_psf st) k); [lia|unfold psf_data; rewrite CA; reflexivity|apply I6].
Qed.

Lemma Sc_a : Sc a = 0.
Proof.
  unfold Sc. replace (map _ (zrange a)) with (map (fun _ : Z => 0) (zrange a)).
  - unfold zsum. induction (zrange a) as [|x l IH]; [reflexivity|]. cbn [map fold_right]. lia.
  - apply map_ext_in. intros i I. apply In_zrange in I. unfold co_at. destruct (coadder i) as [[[co|] fl]|]; try reflexivity. dif E; [lia|reflexivity].
Qed.
Lemma Sp_a : Sp a = 0.
Proof.
  unfold Sp. replace (map _ (zrange a)) with (map (fun _ : Z => 0) (zrange a)).
  - unfold zsum. induction (zrange a) as [|x l IH]; [reflexivity|]. cbn [map fold_right]. lia.
  - apply map_ext_in. intros i I. apply In_zrange in I. unfold co_at. destruct (coadder i) as [[[co|] fl]|]; try reflexivity. dif E; [lia|reflexivity].
Qed.

Definition st0 (total ptotal : Z) (junk : ctype -> Z -> Q) (pjunk : Z -> Q) : wstate :=
  mkWstate rows0 (reserve types total junk) (map pjunk (zrange ptotal)) 0 0 0 0.

Lemma reserve_has l total junk t : In t l -> ext_find (reserve l total junk) t = Some (map (junk t) (zrange total)).
Proof.
  induction l as [|t0 l IH]; [intros []|]. cbn [reserve map ext_find]. intros H. destruct (ctype_eqb t0 t) eqn:E.
  - apply ctype_eqb_eq in E. subst. reflexivity.
  - destruct H as [->|H]; [rewrite ctype_eqb_refl in E; discriminate|apply IH; exact H].
Qed.

Lemma inv_0 total ptotal junk pjunk : 0 <= total -> 0 <= ptotal -> Inv total ptotal a (st0 total ptotal junk pjunk).
Proof.
  intros T P. constructor; cbn [st0 ws_rows ws_row_start ws_size ws_psf_row_start ws_psf_size ws_ext ws_psf].
  - reflexivity.
  - intros j r0 Z. exists r0. split; [exact Z|]. right. split; [lia|reflexivity].
  - rewrite Sc_a. reflexivity.
  - rewrite Sp_a. reflexivity.
  - intros t I. exists (map (junk t) (zrange total)). split; [apply reserve_has; exact I|]. split; [rewrite zlen_map, zlen_zrange; lia|].
    intros j d J E. unfold cut_data in E. destruct (co_at j) as [co|] eqn:C; [|discriminate]. apply co_at_Some in C. destruct C as (? & ? & _ & C & _). lia.
  - split; [rewrite zlen_map, zlen_zrange; lia|].
    intros j d J E. unfold psf_data in E. destruct (co_at j) as [co|] eqn:C; [|discriminate]. apply co_at_Some in C. destruct C as (? & ? & _ & C & _). lia.
Qed.

Lemma fold_inv total ptotal junk pjunk : 0 <= total -> 0 <= ptotal -> forall n st, a + Z.of_nat n <= Z.max a b ->
  foldM (write_object_cutouts types coadder) (map (fun k => a + k) (zrange (Z.of_nat n))) (st0 total ptotal junk pjunk) = Ok st ->
  Inv total ptotal (a + Z.of_nat n) st.
Proof.
  intros T P. induction n as [|n IH]; intros st L H.
  - inversion H; subst. replace (a + Z.of_nat 0) with a by lia. apply inv_0; assumption.
  - rewrite zrange_S, map_app, foldM_app in H. apply bind_ok in H. destruct H as (s1 & H1 & H). cbn [map foldM] in H. apply bind_ok in H. destruct H as (s2 & H & E). inversion E; subst s2.
    replace (a + Z.of_nat (S n)) with ((a + Z.of_nat n) + 1) by lia. apply (step_inv _ _ _ s1); [lia|apply IH; [lia|exact H1]|exact H].
Qed.

(** The space is enough. *)
Lemma Sc_le n : (n <= length (m_cat f))%nat ->
  Sc (Z.of_nat n) <= zsum (map (fun o => o_box o ^ 2) (firstn n (m_cat f))).
Proof.
  induction n as [|n IH]; intros L; [reflexivity|].
  replace (Z.of_nat (S n)) with (Z.of_nat n + 1) by lia. rewrite (Sc_step TImage) by lia.
  destruct (nth_error (m_cat f) n) as [o|] eqn:E; [|apply nth_error_None in E; lia].
  assert (FN : firstn (S n) (m_cat f) = firstn n (m_cat f) ++ [o]).
  { clear -E. revert E. generalize (m_cat f). induction n as [|n IH]; intros [|x l] E; try discriminate; cbn [nth_error] in E; [inversion E; reflexivity|].
    change (firstn (S (S n)) (x :: l)) with (x :: firstn (S n) l). rewrite (IH _ E). reflexivity. }
  rewrite FN, map_app, zsum_app. cbn [map]. unfold zsum at 2. cbn [fold_right]. assert (dlen (cut_data TImage (Z.of_nat n)) <= o_box o ^ 2); [|specialize (IH ltac:(lia)); lia].
  unfold cut_data. destruct (co_at (Z.of_nat n)) as [co|] eqn:C; cbn [option_map dlen]; [|nia].
  rewrite (plane_shape _ _ TImage C). destruct (co_at_Some _ _ C) as (fl & o' & C1 & _ & O'). rewrite zget_nat in O'. rewrite E in O'. inversion O'; subst o'.
  destruct (HS (Z.of_nat n) o co fl) as (_ & PL & _); [rewrite zget_nat; exact E|exact C1|]. destruct (PL TImage) as (_ & N1 & _). cbn [coadd_plane] in N1. rewrite N1. lia.
Qed.
Lemma Sc_total k : 0 <= k <= zlen (m_cat f) -> Sc k <= zsum (map (fun o => o_box o ^ 2) (m_cat f)).
Proof.
  intros K. transitivity (Sc (zlen (m_cat f))).
  - apply (store_mono (cut_data TImage) Sc (Sc_step TImage)). exact K.
  - unfold zlen. rewrite <- (firstn_all (m_cat f)) at 2. apply Sc_le. lia.
Qed.

Lemma step_total total ptotal k st : a <= k < b -> b <= zlen (m_cat f) -> Inv total ptotal k st ->
  (exists x fl, coadder k = Ok (x, fl) /\ forall co r0, x = Some co -> zget rows0 k = Some r0 -> zlen (co_imflags co) <= zlen (cr_orig_flags r0)) ->
  total = zsum (map (fun o => o_box o ^ 2) (m_cat f)) -> Sp b <= ptotal ->
  exists st', write_object_cutouts types coadder st k = Ok st'.
Proof.
  intros K BN I (x & fl & C & FL) T P. destruct I as [I1 I2 I3 I4 I5 I6]. unfold write_object_cutouts. rewrite C. cbn [bind].
  pose proof rows0_len as RL. destruct (zget_range_Some rows0 k) as (r0 & Z0); [lia|].
  destruct (I2 k r0 Z0) as (r & Z1 & D). destruct D as [[D _]|[_ ->]]; [lia|]. rewrite Z1. cbn [bind].
  destruct x as [co|]; [|eexists; reflexivity]. destruct (rows0_get k r0 Z0) as (o & O & BX & _ & _ & _ & SL).
  pose proof (co_at_intro k co fl o C K O) as CA. destruct (HS k o co fl O C) as (BP & PL & PS1 & PS2 & PS3).
  destruct (PL TImage) as (_ & N1 & _). cbn [coadd_plane] in N1. replace (o_box (cr_obj r0) =? nr (co_image co)) with true by lia. cbn [negb].
  rewrite I3, I4. unfold filled_row, set_prefix. specialize (FL co r0 eq_refl Z0). replace (zlen (co_imflags co) <=? zlen (cr_orig_flags r0)) with true by lia. cbn [bind].
  destruct (o_slots (cr_obj r0)) as [|s rest]; [unfold zlen in SL; cbn [length] in SL; lia|]. cbn [bind].
  destruct (write_types_total co (Sc k) types (ws_ext st)) as (ext & ->).
  { intros t TT. destruct (I5 t TT) as (m & M1 & M2 & _). exists m. split; [exact M1|]. split; [apply (store_nonneg (cut_data TImage) Sc Sc_0 (Sc_step TImage)); lia|].
    assert (X : Sc (k + 1) <= total) by (rewrite T; apply Sc_total; lia). rewrite (Sc_step t) in X by lia. unfold cut_data in X. rewrite CA in X. cbn [option_map dlen] in X. lia. }
  cbn [bind]. destruct (write_at_in_range (ws_psf st) (Sp k) (dat (co_psf co))) as (psf & ->).
  - apply (store_nonneg psf_data Sp Sp_0 Sp_step). lia.
  - destruct I6 as (L & _). rewrite L. assert (X : Sp (k + 1) <= Sp b) by (apply (store_mono psf_data Sp Sp_step); lia).
    rewrite Sp_step in X by lia. unfold psf_data in X. rewrite CA in X. cbn [option_map dlen] in X. lia.
  - eexists; reflexivity.
Qed.

Lemma fold_total total ptotal junk pjunk : total = zsum (map (fun o => o_box o ^ 2) (m_cat f)) -> Sp b <= ptotal -> 0 <= ptotal ->
  b <= zlen (m_cat f) ->
  (forall k, a <= k < b -> exists x fl, coadder k = Ok (x, fl) /\ forall co r0, x = Some co -> zget rows0 k = Some r0 -> zlen (co_imflags co) <= zlen (cr_orig_flags r0)) ->
  forall n, a + Z.of_nat n <= Z.max a b ->
  exists st, foldM (write_object_cutouts types coadder) (map (fun k => a + k) (zrange (Z.of_nat n))) (st0 total ptotal junk pjunk) = Ok st.
Proof.
  intros T P P0 BN HC. assert (T0 : 0 <= total).
  { rewrite T. clear. induction (m_cat f) as [|o l IH]; unfold zsum in *; cbn [map fold_right]; [lia|]. nia. }
  induction n as [|n IH]; intros L; [eexists; reflexivity|]. destruct IH as (st & E); [lia|].
  rewrite zrange_S, map_app, foldM_app, E. cbn [bind map foldM].
  destruct (step_total total ptotal (a + Z.of_nat n) st) as (st' & ->); try assumption; [lia|eapply fold_inv; [exact T0|exact P0|lia|exact E]|apply HC; lia|]. eexists; reflexivity.
Qed.

(** * What the readers see *)
Lemma filled_obj r0 co fl x y r : filled_row r0 co fl x y = Ok r ->
  exists s rest, o_slots (cr_obj r0) = s :: rest /\ o_slots (cr_obj r) = filled_slot s co x y :: rest /\
    o_box (cr_obj r) = o_box (cr_obj r0) /\ o_ncut (cr_obj r) = 1 /\ o_psf_box (cr_obj r) = nr (co_psf co) /\
    cr_coadd_flags r = fl /\ cr_ncoadd r = co_ncoadd co /\ cr_orig_ncutout r = cr_orig_ncutout r0 /\
    cr_orig_flags r = co_imflags co ++ skipn (length (co_imflags co)) (cr_orig_flags r0).
Proof.
  unfold filled_row. intros H. apply bind_ok in H. destruct H as (l & L & H). unfold set_prefix in L. dif_in L E; [|discriminate]. inversion L; subst l.
  destruct (o_slots (cr_obj r0)) as [|s rest]; [discriminate|]. inversion H; subst. exists s, rest. repeat split.
Qed.

Variables (total ptotal : Z) (st : wstate).
Hypothesis I : Inv total ptotal (Z.max a b) st.
Let out : medsfile := mkMeds (map cr_obj (ws_rows st)) true PsfBoxObj (firstn 1 (m_info f)) (ws_ext st) (Some (ws_psf st)).

Lemma out_row j co fl o : coadder j = Ok (Some co, fl) -> a <= j < b -> zget (m_cat f) j = Some o ->
  exists r0 r, zget rows0 j = Some r0 /\ zget (ws_rows st) j = Some r /\ o_box (cr_obj r0) = nr (co_image co) /\ filled_row r0 co fl (Sc j) (Sp j) = Ok r.
Proof.
  intros C R O. pose proof (zget_Some_range _ _ _ O) as OR. pose proof rows0_len as RL. destruct (zget_range_Some rows0 j) as (r0 & Z0); [lia|].
  destruct (inv_rows _ _ _ _ I j r0 Z0) as (r & Z1 & [[_ D]|[D _]]); [|lia]. exists r0, r. split; [exact Z0|]. split; [exact Z1|].
  destruct D as (x & fl' & C' & D). rewrite C in C'. inversion C'; subst. exact D.
Qed.

Lemma out_cutout j co fl o t : coadder j = Ok (Some co, fl) -> a <= j < b -> zget (m_cat f) j = Some o -> In t types ->
  get_cutout out j 0 t = Ok (coadd_plane co t).
Proof.
  intros C R O T. destruct (out_row j co fl o C R O) as (r0 & r & Z0 & Z1 & B & F). destruct (filled_obj _ _ _ _ _ _ F) as (s & rest & S1 & S2 & S3 & S4 & _).
  destruct (HS j o co fl O C) as (BP & PL & _). destruct (PL t) as ((K1 & K2 & K3) & N1 & N2). destruct (PL TImage) as (_ & N3 & _). cbn [coadd_plane] in N3.
  pose proof (co_at_intro j co fl o C R O) as CA. unfold get_cutout. rewrite (check_indices_ok out j 0 (cr_obj r)).
  2:{ cbn [out m_cat]. rewrite zget_map, Z1. reflexivity. } 2:{ lia. }
  cbn [bind]. unfold get_slot. rewrite (proj2 (py_index_ok_nonneg (o_slots (cr_obj r)) 0 (filled_slot s co (Sc j) (Sp j)) (Z.le_refl 0))) by (rewrite S2; reflexivity).
  cbn [bind]. change (s_start (filled_slot s co (Sc j) (Sp j))) with (Sc j). unfold get_extension. cbn [out m_ext].
  destruct (inv_ext _ _ _ _ I t T) as (m & M1 & M2 & M3). rewrite M1. cbn [bind].
  assert (BB : o_box (cr_obj r) = o_box o) by lia. rewrite BB.
  assert (LD : zlen (dat (coadd_plane co t)) = o_box o * o_box o) by (rewrite K3, N1, N2; reflexivity).
  assert (EN : forall i, 0 <= i < o_box o * o_box o -> zget m (Sc j + i) = zget (dat (coadd_plane co t)) i).
  { intros i Hi. apply (M3 j (dat (coadd_plane co t))); [lia| |lia]. unfold cut_data. rewrite CA. cbn [option_map]. rewrite plane_data. reflexivity. }
  assert (J0 : 0 <= Sc j) by (apply (store_nonneg (cut_data TImage) Sc Sc_0 (Sc_step TImage)); lia).
  assert (UB : Sc j + o_box o * o_box o <= zlen m).
  { assert (P1 : 0 < o_box o * o_box o) by nia. specialize (EN (o_box o * o_box o - 1) ltac:(lia)).
    destruct (zget_range_Some (dat (coadd_plane co t)) (o_box o * o_box o - 1)) as (v & V); [lia|]. rewrite V in EN. apply zget_Some_range in EN. lia. }
  rewrite (slice_spec m (dat (coadd_plane co t))); [|lia|nia|lia|lia|intros i Hi; apply EN; lia]. cbn [bind]. unfold reshape.
  replace ((0 <=? o_box o) && (0 <=? o_box o) && (zlen (dat (coadd_plane co t)) =? o_box o * o_box o)) with true by lia.
  f_equal. destruct (coadd_plane co t) as [h w d]. cbn [nr nc dat] in *. congruence.
Qed.

Lemma out_psf j co fl o : coadder j = Ok (Some co, fl) -> a <= j < b -> zget (m_cat f) j = Some o ->
  get_psf out j 0 = Ok (co_psf co).
Proof.
  intros C R O. destruct (out_row j co fl o C R O) as (r0 & r & Z0 & Z1 & B & F). destruct (filled_obj _ _ _ _ _ _ F) as (s & rest & S1 & S2 & S3 & S4 & S5 & _).
  destruct (HS j o co fl O C) as (BP & _ & (K1 & K2 & K3) & N1 & N2).
  pose proof (co_at_intro j co fl o C R O) as CA. unfold get_psf. cbn [out m_psf]. rewrite (check_indices_ok out j 0 (cr_obj r)).
  2:{ cbn [out m_cat]. rewrite zget_map, Z1. reflexivity. } 2:{ lia. }
  cbn [bind]. unfold get_psf_shape. cbn [out m_psf_cols bind fst snd]. rewrite S5. unfold get_slot. rewrite (proj2 (py_index_ok_nonneg (o_slots (cr_obj r)) 0 (filled_slot s co (Sc j) (Sp j)) (Z.le_refl 0))) by (rewrite S2; reflexivity).
  cbn [bind]. change (s_psf_start (filled_slot s co (Sc j) (Sp j))) with (Sp j).
  destruct (inv_psf _ _ _ _ I) as (PL & PS). set (n := nr (co_psf co)) in *. set (m := ws_psf st) in *.
  assert (LD : zlen (dat (co_psf co)) = n * n) by (rewrite K3, N2; reflexivity).
  assert (EN : forall i, 0 <= i < n * n -> zget m (Sp j + i) = zget (dat (co_psf co)) i).
  { intros i Hi. apply (PS j (dat (co_psf co))); [lia| |lia]. unfold psf_data. rewrite CA. reflexivity. }
  assert (J0 : 0 <= Sp j) by (apply (store_nonneg psf_data Sp Sp_0 Sp_step); lia).
  assert (UB : Sp j + n * n <= zlen m).
  { assert (P1 : 0 < n * n) by nia. specialize (EN (n * n - 1) ltac:(lia)).
    destruct (zget_range_Some (dat (co_psf co)) (n * n - 1)) as (v & V); [lia|]. rewrite V in EN. apply zget_Some_range in EN. lia. }
  rewrite (slice_spec m (dat (co_psf co))); [|lia|nia|lia|lia|intros i Hi; apply EN; lia]. cbn [bind]. unfold reshape.
  replace ((0 <=? n) && (0 <=? n) && (zlen (dat (co_psf co)) =? n * n)) with true by lia.
  f_equal. unfold n in *. destruct (co_psf co) as [h w d]. cbn [nr nc dat] in *. congruence.
Qed.

Lemma out_tiles_n n : (n <= length (ws_rows st))%nat -> tiles 0 (cut_ranges (map cr_obj (firstn n (ws_rows st)))) (Sc (Z.of_nat n)).
Proof.
  induction n as [|n IH]; intros L; [constructor|].
  destruct (nth_error (ws_rows st) n) as [r|] eqn:E; [|apply nth_error_None in E; lia].
  assert (FN : firstn (S n) (ws_rows st) = firstn n (ws_rows st) ++ [r]).
  { clear -E. revert E. generalize (ws_rows st). induction n as [|n IH]; intros [|x l] E; try discriminate; cbn [nth_error] in E; [inversion E; reflexivity|].
    change (firstn (S (S n)) (x :: l)) with (x :: firstn (S n) l). rewrite (IH _ E). reflexivity. }
  rewrite FN, map_app. unfold cut_ranges. rewrite flat_map_app. fold (cut_ranges (map cr_obj (firstn n (ws_rows st)))).
  assert (APP : forall x rs y rs' z, tiles x rs y -> tiles y rs' z -> tiles x (rs ++ rs') z).
  { clear. intros x rs y rs' z H. induction H; intros G; cbn [app]; [exact G|]. constructor; [assumption|]. apply IHtiles. exact G. }
  eapply APP; [apply IH; lia|]. cbn [map flat_map]. rewrite app_nil_r.
  replace (Z.of_nat (S n)) with (Z.of_nat n + 1) by lia. rewrite (Sc_step TImage) by lia.
  pose proof (inv_len _ _ _ _ I) as IL. pose proof rows0_len as RL.
  assert (NL : (n < length (ws_rows st))%nat) by lia. destruct (zget_range_Some rows0 (Z.of_nat n)) as (r0 & Z0); [unfold zlen in *; lia|].
  destruct (inv_rows _ _ _ _ I _ _ Z0) as (r' & Z1 & D). rewrite zget_nat, E in Z1. inversion Z1; subst r'; clear Z1.
  destruct (rows0_get _ _ Z0) as (o & O & BX & NC & _ & _ & _).
  assert (EMPTY : o_ncut (cr_obj r) = 0 -> cut_data TImage (Z.of_nat n) = None -> tiles (Sc (Z.of_nat n)) (map (fun s => (s_start s, s_start s + o_box (cr_obj r) * o_box (cr_obj r))) (used_slots (cr_obj r))) (Sc (Z.of_nat n) + dlen (cut_data TImage (Z.of_nat n)))).
  { intros X Y. unfold used_slots. rewrite X, Y. cbn [Z.to_nat firstn map dlen]. rewrite Z.add_0_r. constructor. }
  destruct D as [[D (x & fl & C & W)]|[D ->]].
  - destruct x as [co|].
    + destruct W as (B & F). destruct (filled_obj _ _ _ _ _ _ F) as (s & rest & S1 & S2 & S3 & S4 & _).
      assert (CA : co_at (Z.of_nat n) = Some co) by (apply (co_at_intro _ co fl o C); [lia|exact O]).
      unfold used_slots. rewrite S4, S2. cbn [Z.to_nat Pos.to_nat Pos.iter_op firstn map]. unfold cut_data. rewrite CA. cbn [option_map dlen].
      rewrite (plane_shape _ _ TImage CA). change (s_start (filled_slot s co (Sc (Z.of_nat n)) (Sp (Z.of_nat n)))) with (Sc (Z.of_nat n)).
      replace (o_box (cr_obj r) * o_box (cr_obj r)) with (nr (co_image co) ^ 2) by (rewrite S3, B; ring). constructor; [nia|constructor].
    + subst r. apply EMPTY; [exact NC|]. unfold cut_data, co_at. rewrite C. reflexivity.
  - apply EMPTY; [exact NC|]. unfold cut_data, co_at. destruct (coadder (Z.of_nat n)) as [[[co|] fl]|]; try reflexivity. dif X; [lia|reflexivity].
Qed.
End Layout.
