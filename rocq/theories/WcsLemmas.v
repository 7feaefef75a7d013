From Coq Require Import String Lia ZifyBool ZifyNat.
From Verif Require Import Base Img Types BoundsM MakerLayout WcsSel SpecWcs BaseLemmas.
Open Scope Z_scope.

Lemma header_size_sized h n : header_size h = Ok n <-> sized h n.
Proof.
  destruct h as [z m s]. unfold header_size. cbn [h_z h_n]. split.
  - destruct z as [z|]; [intros H; injection H as ->; constructor|].
    destruct m as [m|]; intros H; [injection H as ->; constructor|discriminate H].
  - intros H. inversion H; subst; reflexivity.
Qed.
Lemma sized_fun h n n' : sized h n -> sized h n' -> n = n'.
Proof. intros A B. apply header_size_sized in A. apply header_size_sized in B. congruence. Qed.

Lemma nth_upd {X} (l : list X) i j a x : nth_error l i = Some x ->
  nth_error (upd l i a) j = if (i =? j)%nat then Some a else nth_error l j.
Proof.
  intros H. rewrite nth_error_upd. destruct (Nat.eqb_spec i j) as [->|]; [|reflexivity].
  assert (j < length l)%nat by (apply nth_error_Some; congruence).
  destruct (Nat.ltb_spec j (length l)); [reflexivity|lia].
Qed.
Lemma Forall2_len {A B} (R : A -> B -> Prop) l m : Forall2 R l m -> length l = length m.
Proof. induction 1; cbn; congruence. Qed.

(** The objects of [h] are still there with the same transformations. *)
Definition ext (h g : heap) : Prop :=
  forall r w, nth_error h r = Some w -> exists w', nth_error g r = Some w' /\ wo_sky w' = wo_sky w.
Lemma ext_refl h : ext h h.
Proof. intros r w H. exists w. auto. Qed.
Lemma ext_app h g x : ext h g -> ext h (g ++ x).
Proof.
  intros E r w H. destruct (E r w H) as (w' & H' & S). exists w'. split; [|exact S].
  rewrite nth_error_app1; [exact H'|]. apply nth_error_Some. congruence.
Qed.
Lemma modify_ext h g r f g' : (forall w, wo_sky (f w) = wo_sky w) -> ext h g -> modify g r f = Ok g' -> ext h g'.
Proof.
  intros F E H. unfold modify in H. destruct (nth_error g r) as [a|] eqn:Ea; [|discriminate H]. injection H as <-.
  intros r' w Hw. destruct (E r' w Hw) as (w' & H' & S). rewrite (nth_upd _ _ _ _ _ Ea).
  destruct (Nat.eqb_spec r r') as [->|N].
  - rewrite H' in *. injection Ea as ->. exists (f a). split; [reflexivity|]. rewrite F. exact S.
  - exists w'. auto.
Qed.

Section Fixed.
Context (W : world) (psf : option (list psfw)) (ht : bool) (rows : list irow) (h : heap) (POK : psf_ok psf rows h).

Lemma psf_cases i p : 0 <= i < zlen rows ->
  match psf with Some l => py_index l i | None => Ok NoWcs end = Ok p ->
  match p with
  | NoWcs => psf_silent psf i
  | Same r => shares psf i r /\ (r < length h)%nat
  | Copy w => exists l, psf = Some l /\ zget l i = Some (Copy w)
  end.
Proof.
  intros Hi H. unfold psf_ok in POK. destruct psf as [l|].
  - destruct POK as [HL HR]. apply py_index_ok_nonneg in H; [|lia]. destruct p as [|r|w].
    + right. exists l. auto.
    + split; [exists l; auto|]. apply (HR i r H).
    + exists l. auto.
  - injection H as <-. left. reflexivity.
Qed.

(** One image from any later state of the memory. *)
Lemma take_own g i g' im : ext h g -> 0 <= i < zlen rows -> take_wcs W psf ht rows g i = Ok (g', im) ->
  own W psf ht rows h i im /\ ext h g'.
Proof.
  intros E Hi H. unfold take_wcs in H. apply bind_ok in H as (row & E1 & H). apply bind_ok in H as ([g1 r] & E2 & H).
  cbn [fst snd] in H. apply bind_ok in H as (g2 & E3 & H). apply bind_ok in H as (w & E4 & H). apply bind_ok in H as (im' & E5 & H).
  injection H as <- <-. pose proof E1 as E1'. apply py_index_ok_nonneg in E1; [|lia].
  unfold get_wcs in E2. rewrite E1' in E2. cbn [bind] in E2. apply bind_ok in E2 as (p & Ep & E2).
  pose proof (psf_cases i p Hi Ep) as PC. clear Ep.
  assert (Fo : forall w, wo_sky (set_offset (i_offset row) w) = wo_sky w) by reflexivity.
  assert (Eg1 : ext h g1).
  { destruct p as [|r0|w0].
    - apply bind_ok in E2 as (data & _ & E2). apply bind_ok in E2 as (sn & _ & E2). injection E2 as <- _. apply ext_app, E.
    - apply bind_ok in E2 as (hd & _ & E2). apply bind_ok in E2 as (n & _ & E2). apply bind_ok in E2 as (g0 & E6 & E2).
      injection E2 as <- _. apply (modify_ext h g r0 (set_naxis n) g0); [reflexivity|exact E|exact E6].
    - apply bind_ok in E2 as (hd & _ & E2). apply bind_ok in E2 as (n & _ & E2). injection E2 as <- _. apply ext_app, E. }
  split; [|apply (modify_ext h g1 r (set_offset (i_offset row)) g2 Fo Eg1 E3)].
  assert (Ew : exists w1, nth_error g1 r = Some w1 /\ w = set_offset (i_offset row) w1).
  { unfold modify in E3. destruct (nth_error g1 r) as [w1|] eqn:Er; [|discriminate E3]. injection E3 as <-.
    rewrite (nth_upd _ _ _ _ _ Er), Nat.eqb_refl in E4. injection E4 as <-. exists w1. auto. }
  destruct Ew as (w1 & Er & ->). unfold image_of, set_offset in E5. cbn [wo_offset wo_sky wo_naxis] in E5. injection E5 as <-.
  change (own W psf ht rows h i (picture (wo_sky w1) (wo_naxis w1) (i_offset row))).
  destruct p as [|r0|w0].
  - apply bind_ok in E2 as (data & Ed & E2). apply bind_ok in E2 as ([s n] & Es & E2). injection E2 as <- <-.
    rewrite nth_error_app2, Nat.sub_diag in Er by lia. cbn in Er. injection Er as <-. cbn [wo_sky wo_naxis].
    destruct ht eqn:Et.
    + apply (O_text W psf _ rows h i row data s n); auto.
    + apply (O_header W psf _ rows h i row data s n); auto.
  - destruct PC as [(l & Hl & Hz) Hr]. apply bind_ok in E2 as (hd & Eh & E2). apply bind_ok in E2 as (n & En & E2).
    apply bind_ok in E2 as (g0 & E6 & E2). injection E2 as <- <-. unfold modify in E6.
    destruct (nth_error g r0) as [w0|] eqn:E0; [|discriminate E6]. injection E6 as <-.
    rewrite (nth_upd _ _ _ _ _ E0), Nat.eqb_refl in Er. injection Er as <-. cbn [wo_sky wo_naxis set_naxis].
    destruct (nth_error h r0) as [wh|] eqn:Ehh; [|apply nth_error_None in Ehh; lia].
    destruct (E r0 wh Ehh) as (w' & Hw' & S). assert (w' = w0) as -> by congruence. rewrite S.
    apply header_size_sized in En. apply (O_psf W psf ht rows h i row (wo_sky wh) hd n); auto.
    apply (P_same psf h i l r0 wh); auto.
  - destruct PC as (l & Hl & Hz). apply bind_ok in E2 as (hd & Eh & E2). apply bind_ok in E2 as (n & En & E2).
    injection E2 as <- <-. rewrite nth_error_app2, Nat.sub_diag in Er by lia. cbn in Er. injection Er as <-. cbn [wo_sky wo_naxis set_naxis].
    apply header_size_sized in En. apply (O_psf W psf ht rows h i row (wo_sky w0) hd n); auto.
    apply (P_copy psf h i l w0); auto.
Qed.

Lemma psf_index i p : 0 <= i < zlen rows ->
  (forall l, psf = Some l -> zget l i = Some p) -> (psf = None -> p = NoWcs) ->
  match psf with Some l => py_index l i | None => Ok NoWcs end = Ok p.
Proof.
  intros Hi H N. destruct psf as [l|].
  - rewrite py_index_nonneg by lia. rewrite (H l eq_refl). reflexivity.
  - rewrite N; reflexivity.
Qed.

Lemma finish g r w row im : nth_error g r = Some w -> image_of (set_offset (i_offset row) w) = Ok im ->
  ext h g -> exists g',
  (let* h' := modify g r (set_offset (i_offset row)) in
   let* w := match nth_error h' r with Some w => Ok w | None => Err IndexError end in
   let* im := image_of w in Ok (h', im)) = Ok (g', im) /\ ext h g'.
Proof.
  intros Hr Hi E. exists (upd g r (set_offset (i_offset row) w)).
  assert (Em : modify g r (set_offset (i_offset row)) = Ok (upd g r (set_offset (i_offset row) w)))
    by (unfold modify; rewrite Hr; reflexivity).
  rewrite Em. cbn [bind]. rewrite (nth_upd _ _ _ _ _ Hr), Nat.eqb_refl. cbn [bind]. rewrite Hi. cbn [bind]. split; [reflexivity|].
  apply (modify_ext h g r (set_offset (i_offset row)) _); [reflexivity|exact E|exact Em].
Qed.

Lemma own_take g i im : ext h g -> 0 <= i < zlen rows -> own W psf ht rows h i im ->
  exists g', take_wcs W psf ht rows g i = Ok (g', im) /\ ext h g'.
Proof.
  intros E Hi O. unfold take_wcs, get_wcs.
  destruct O as [row s hd n Hrow Hs Hh Hn|row data s n Hrow Hs -> Hd Hc|row data s n Hrow Hs -> Hd Hc];
    rewrite (py_index_nonneg rows i) by lia; rewrite Hrow; cbn [bind].
  - destruct Hs as [l r w Hl Hz Hr|l w Hl Hz].
    + rewrite (psf_index i (Same r) Hi) by (intros; congruence). cbn [bind]. rewrite Hh. cbn [bind].
      apply header_size_sized in Hn. rewrite Hn. cbn [bind]. destruct (E r w Hr) as (w' & Hw' & S).
      assert (Em : modify g r (set_naxis n) = Ok (upd g r (set_naxis n w'))) by (unfold modify; rewrite Hw'; reflexivity).
      rewrite Em. cbn [bind fst snd].
      apply (finish _ r (set_naxis n w')).
      * rewrite (nth_upd _ _ _ _ _ Hw'), Nat.eqb_refl. reflexivity.
      * unfold image_of, picture. cbn [set_offset set_naxis wo_offset wo_sky wo_naxis]. rewrite S. reflexivity.
      * apply (modify_ext h g r (set_naxis n)); [reflexivity|exact E|exact Em].
    + rewrite (psf_index i (Copy w) Hi) by (intros; congruence). cbn [bind]. rewrite Hh. cbn [bind].
      apply header_size_sized in Hn. rewrite Hn. cbn [bind fst snd].
      apply (finish _ _ (set_naxis n w)).
      * rewrite nth_error_app2, Nat.sub_diag by lia. reflexivity.
      * reflexivity.
      * apply ext_app, E.
  - rewrite (psf_index i NoWcs Hi).
    2:{ intros l Hl. destruct Hs as [N|(l' & Hl' & Hz)]; congruence. } 2:{ reflexivity. }
    cbn [bind]. rewrite Hd. cbn [bind]. rewrite Hc. cbn [bind fst snd].
    apply (finish _ _ (mkWobj s n None)).
    + rewrite nth_error_app2, Nat.sub_diag by lia. reflexivity.
    + reflexivity.
    + apply ext_app, E.
  - rewrite (psf_index i NoWcs Hi).
    2:{ intros l Hl. destruct Hs as [N|(l' & Hl' & Hz)]; congruence. } 2:{ reflexivity. }
    cbn [bind]. rewrite Hd. cbn [bind]. rewrite Hc. cbn [bind fst snd].
    apply (finish _ _ (mkWobj s n None)).
    + rewrite nth_error_app2, Nat.sub_diag by lia. reflexivity.
    + reflexivity.
    + apply ext_app, E.
Qed.

Lemma own_fun i im im' : 0 <= i < zlen rows -> own W psf ht rows h i im -> own W psf ht rows h i im' -> im = im'.
Proof.
  intros Hi A B. destruct (own_take h i im (ext_refl h) Hi A) as (g & Hg & _).
  destruct (own_take h i im' (ext_refl h) Hi B) as (g' & Hg' & _). congruence.
Qed.

Lemma loop_own c ids : forall g cat g' cat', ext h g -> (forall i, In i ids -> 0 <= i < zlen rows) ->
  foldM (file_with W psf ht rows c) ids (g, cat) = Ok (g', cat') ->
  exists images, Forall2 (own W psf ht rows h) ids images /\ foldM (layout_file c) (combine ids images) cat = Ok cat'.
Proof.
  induction ids as [|i ids IH]; intros g cat g' cat' E Hi H; cbn [foldM] in H.
  - injection H as <- <-. exists []. split; [constructor|reflexivity].
  - apply bind_ok in H as ([g1 cat1] & H1 & H). unfold file_with in H1. cbn [fst snd] in H1.
    apply bind_ok in H1 as ([g2 im] & E1 & H1). cbn [fst snd] in H1. apply bind_ok in H1 as (cat2 & E2 & H1). injection H1 as <- <-.
    destruct (take_own g i g2 im E (Hi i (or_introl eq_refl)) E1) as [O E'].
    destruct (IH g2 cat2 g' cat' E' (fun j Hj => Hi j (or_intror Hj)) H) as (ims & F & HF).
    exists (im :: ims). split; [constructor; assumption|]. cbn [combine foldM]. rewrite E2. exact HF.
Qed.
Lemma own_loop c ids images : Forall2 (own W psf ht rows h) ids images ->
  forall g cat cat', ext h g -> (forall i, In i ids -> 0 <= i < zlen rows) ->
  foldM (layout_file c) (combine ids images) cat = Ok cat' ->
  exists g', foldM (file_with W psf ht rows c) ids (g, cat) = Ok (g', cat').
Proof.
  induction 1 as [|i im ids ims O F IH]; intros g cat cat' E Hi H; cbn [foldM combine] in *.
  - injection H as <-. exists g. reflexivity.
  - apply bind_ok in H as (cat1 & H1 & H).
    destruct (own_take g i im E (Hi i (or_introl eq_refl)) O) as (g1 & E1 & E').
    unfold file_with at 1. cbn [fst snd]. rewrite E1. cbn [bind fst snd]. rewrite H1. cbn [bind].
    apply (IH g1 cat1 cat' E' (fun j Hj => Hi j (or_intror Hj)) H).
Qed.

Lemma trim_first c im ims cat : trim_cat c (im :: ims) cat = trim_cat c [im] cat.
Proof. reflexivity. Qed.

Lemma zrange_cons n : 0 < n -> zrange n = 0 :: tl (zrange n).
Proof. intros H. unfold zrange. destruct (Z.to_nat n) eqn:E; [lia|]. reflexivity. Qed.

Lemma layout_own c cat r :
  (exists g, layout_with W psf ht rows c h cat = Ok (g, r)) <->
  exists images, Forall2 (own W psf ht rows h) (zrange (zlen rows)) images /\ build_layout c images cat = Ok r.
Proof.
  assert (R : forall i, In i (zrange (zlen rows)) -> 0 <= i < zlen rows) by (intros i Hi; apply In_zrange, Hi).
  split.
  - intros (g & H). unfold layout_with in H. apply bind_ok in H as ([g1 cat1] & E1 & H). apply bind_ok in H as ([g2 cat2] & E2 & H).
    cbn [fst snd] in H. apply bind_ok in H as (cat3 & E3 & H). apply bind_ok in H as (r' & E4 & H). injection H as _ <-.
    assert (T : ext h g1 /\ (first_image_is_coadd c && trim_to_coadd c = false /\ cat1 = cat \/
       first_image_is_coadd c && trim_to_coadd c = true /\ 0 < zlen rows /\ exists im0, own W psf ht rows h 0 im0 /\ trim_cat c [im0] cat = Ok cat1)).
    { unfold trim_with in E1. destruct (first_image_is_coadd c && trim_to_coadd c).
      - apply bind_ok in E1 as ([g0 im0] & T1 & E1). cbn [fst snd] in E1. apply bind_ok in E1 as (c1 & T2 & E1). injection E1 as <- <-.
        assert (0 < zlen rows).
        { unfold take_wcs in T1. apply bind_ok in T1 as (row & T1 & _). apply py_index_ok_nonneg in T1; [|lia].
          apply zget_Some_range in T1. lia. }
        destruct (take_own h 0 g0 im0 (ext_refl h)) as [O E]; [lia|exact T1|]. split; [exact E|]. right. eauto.
      - injection E1 as <- <-. split; [apply ext_refl|auto]. }
    destruct T as [Eg T]. destruct (loop_own c _ g1 cat1 g2 cat2 Eg R E2) as (ims & F & HF).
    exists ims. split; [exact F|]. unfold build_layout.
    assert (LI : zlen ims = zlen rows).
    { apply Forall2_len in F. unfold zlen at 1. rewrite <- F. rewrite zrange_length. pose proof (zlen_nonneg rows). lia. }
    assert (trim_cat c ims cat = Ok cat1) as ->.
    { destruct T as [[T ->]|(T & P & im0 & O & HT)].
      - unfold trim_cat. rewrite T. reflexivity.
      - rewrite (zrange_cons _ P) in F. inversion F as [|? im ? ims' O' F']; subst.
        assert (im = im0) as -> by (apply (own_fun 0 im im0); [lia|exact O'|exact O]). rewrite trim_first. exact HT. }
    cbn [bind]. rewrite LI, HF. cbn [bind]. rewrite E3. cbn [bind]. exact E4.
  - intros (ims & F & H). unfold build_layout in H. apply bind_ok in H as (cat1 & E1 & H). apply bind_ok in H as (cat2 & E2 & H).
    apply bind_ok in H as (cat3 & E3 & H).
    assert (LI : zlen ims = zlen rows).
    { apply Forall2_len in F. unfold zlen at 1. rewrite <- F. rewrite zrange_length. pose proof (zlen_nonneg rows). lia. }
    rewrite LI in E2. unfold layout_with.
    assert (T : exists g, trim_with W psf ht rows c h cat = Ok (g, cat1) /\ ext h g).
    { unfold trim_with. unfold trim_cat in E1. destruct (first_image_is_coadd c && trim_to_coadd c) eqn:B.
      - destruct ims as [|im ims]; [discriminate E1|].
        assert (P : 0 < zlen rows) by (rewrite <- LI; rewrite zlen_cons; pose proof (zlen_nonneg ims); lia).
        rewrite (zrange_cons _ P) in F. inversion F as [|? im' ? ims' O' F']; subst.
        destruct (own_take h 0 im (ext_refl h)) as (g & Hg & E); [lia|exact O'|]. exists g. rewrite Hg. cbn [bind fst snd].
        unfold trim_cat. rewrite B. rewrite E1. split; [reflexivity|exact E].
      - injection E1 as <-. exists h. split; [reflexivity|apply ext_refl]. }
    destruct T as (g & -> & Eg). cbn [bind]. destruct (own_loop c _ ims F g cat1 cat2 Eg R E2) as (g2 & ->). cbn [bind fst snd].
    rewrite E3. cbn [bind]. rewrite H. cbn [bind]. exists g2. reflexivity.
Qed.
End Fixed.
