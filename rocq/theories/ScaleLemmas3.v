(** Images with other zero points: masked weights (C147). *)
From Coq Require Import Lia ZifyBool ZifyNat.
From Verif Require Import Base Img Types Reader BoundsM MakerLayout MakerWrite MakerFile Composite Fast3tree Uberseg SpecFile SpecScale
  BaseLemmas ImgLemmas FileLemmas ScaleLemmas ScaleLemmas2.
Open Scope Z_scope.

(** A relation of pixels that holds for two zeros. *)
Section Follow.
Variable P : Q -> Q -> Prop.
Hypothesis P0 : P 0%Q 0%Q.

Definition follow (u v : img Q) : Prop := nr u = nr v /\ nc u = nc v /\
  forall r c, match px u r c, px v r c with Some p, Some q => P p q | None, None => True | _, _ => False end.

Lemma follow_px u v r c : follow u v -> both P (px_res u r c) (px_res v r c).
Proof.
  intros (_ & _ & H). specialize (H r c). unfold px_res. destruct (px u r c), (px v r c); try contradiction; [exact H|exact eq_refl].
Qed.

Lemma mapM_follow {X} (f g : X -> res Q) (l : list X) : (forall x, both P (f x) (g x)) -> both (Forall2 P) (mapM f l) (mapM g l).
Proof.
  intros H. induction l as [|x l IH]; cbn [mapM]; [constructor|]. eapply both_bind; [apply H|]. intros a b E.
  eapply both_bind; [exact IH|]. intros s t F. cbn. constructor; assumption.
Qed.

Lemma nth_follow l l' : Forall2 P l l' -> forall n,
  match nth_error l n, nth_error l' n with Some p, Some q => P p q | None, None => True | _, _ => False end.
Proof. intros H. induction H as [|x y l l' E H IH]; intros [|n]; cbn; [exact I|exact I|exact E|apply IH]. Qed.

Lemma tab2M_follow h w f g : (forall r c, both P (f r c) (g r c)) -> both follow (tab2M h w f) (tab2M h w g).
Proof.
  intros H. unfold tab2M. eapply both_bind; [apply mapM_follow; intros x; apply H|]. intros a b F.
  split; [reflexivity|]. split; [reflexivity|]. intros r c. unfold px. cbn [nr nc dat]. destruct (_ && _); [|exact I].
  unfold zget. destruct (_ <? 0); [exact I|]. apply nth_follow. exact F.
Qed.

Section Files.
Variables (f1 f2 : medsfile) (i k : Z) (seg0 w1 w2 : img Q).
Hypothesis EC : m_cat f1 = m_cat f2.
Hypothesis EN : m_number_col f1 = m_number_col f2.
Hypothesis S1 : get_cutout f1 i 0 TSeg = Ok seg0.
Hypothesis S2 : get_cutout f2 i 0 TSeg = Ok seg0.

Lemma rowcol_same j : get_cutout_rowcol f1 i j = get_cutout_rowcol f2 i j.
Proof. unfold get_cutout_rowcol. rewrite EC. reflexivity. Qed.
Lemma jacob_same j : get_jacobian_matrix f1 i j = get_jacobian_matrix f2 i j.
Proof. unfold get_jacobian_matrix. rewrite EC. reflexivity. Qed.
Lemma numbers_same : get_number f1 i = get_number f2 i /\ number_col f1 i = number_col f2 i.
Proof. unfold get_number, number_col. rewrite EC, EN. auto. Qed.

Lemma composite_follow x y b : follow x y ->
  both follow (make_composite_image f1 i k x seg0 b) (make_composite_image f2 i k y seg0 b).
Proof.
  intros F. pose proof F as (F1 & F2 & _). unfold make_composite_image. rewrite !rowcol_same, !jacob_same, F1, F2.
  eapply both_bind; [apply both_refl|]. intros cc ? <-. eapply both_bind; [apply both_refl|]. intros cen ? <-.
  eapply both_bind; [apply both_refl|]. intros id ? <-.
  assert (K : forall (q : res Q) r c, both P (let* s := q in let* x0 := px_res x r c in Ok (if seg_logic b id s then 0%Q else x0))
                                       (let* s := q in let* x0 := px_res y r c in Ok (if seg_logic b id s then 0%Q else x0))).
  { intros q r c. eapply both_bind; [apply both_refl|]. intros s ? <-. eapply both_bind; [apply follow_px; exact F|].
    intros p p' E. cbn. destruct (seg_logic b id s); [exact P0|exact E]. }
  destruct (k =? 0); [apply tab2M_follow; intros r c; apply K|].
  eapply both_bind; [apply both_refl|]. intros j ? <-. eapply both_bind; [apply both_refl|]. intros cj ? <-.
  destruct (mat_inv cj) as [inv|e].
  - apply tab2M_follow. intros r c. destruct (to_coadd _ _ _ _ _ _ r c) as [cr cl]. apply K.
  - apply tab2M_follow. intros r c. exact P0.
Qed.

Lemma interp_same : interpolate_coadd_seg f1 i k = interpolate_coadd_seg f2 i k.
Proof.
  unfold interpolate_coadd_seg, interpolate_coadd_seg_image. rewrite S1, S2, !jacob_same, !rowcol_same. reflexivity.
Qed.

Hypothesis W1 : get_cutout f1 i k TWeight = Ok w1.
Hypothesis W2 : get_cutout f2 i k TWeight = Ok w2.
Hypothesis W : follow w1 w2.

Lemma cweight_follow b : both follow (get_cweight_cutout f1 i k b) (get_cweight_cutout f2 i k b).
Proof. unfold get_cweight_cutout. rewrite W1, W2, S1, S2. cbn [bind]. apply composite_follow. exact W. Qed.

Lemma uberseg_follow fuel fast : both follow (get_uberseg fuel f1 i k fast) (get_uberseg fuel f2 i k fast).
Proof.
  unfold get_uberseg. eapply both_bind; [apply cweight_follow|]. intros x y F. rewrite interp_same.
  eapply both_bind; [apply both_refl|]. intros seg ? <-. destruct (_ =? 2); [exact F|]. rewrite (proj2 numbers_same).
  eapply both_bind; [apply both_refl|]. intros n ? <-. destruct fast.
  - unfold uberseg_tree. eapply both_bind; [apply both_refl|]. intros pts ? <-. eapply both_bind; [apply both_refl|]. intros t ? <-.
    apply tab2M_follow. intros r c. eapply both_bind; [apply both_refl|]. intros s ? <-.
    eapply both_bind; [apply follow_px; exact F|]. intros p q E. destruct (s =? n); [exact E|]. destruct (_ && _); [exact P0|].
    eapply both_bind; [apply both_refl|]. intros r2 ? <-. eapply both_bind; [apply both_refl|]. intros found ? <-.
    destruct (closest_seg _ _ =? -1); [exact E|]. destruct (negb _); [exact P0|exact E].
  - unfold uberseg_slow. apply tab2M_follow. intros r c. eapply both_bind; [apply both_refl|]. intros p ? <-.
    eapply both_bind; [apply both_refl|]. intros sv ? <-. eapply both_bind; [apply follow_px; exact F|]. intros u v E.
    cbn. destruct (negb _); [exact P0|exact E].
Qed.

Variable seg : img Q.
Hypothesis T1 : get_cutout f1 i k TSeg = Ok seg.
Hypothesis T2 : get_cutout f2 i k TSeg = Ok seg.

Lemma cseg_weight_follow b : both follow (get_cseg_weight f1 i k b) (get_cseg_weight f2 i k b).
Proof.
  unfold get_cseg_weight. rewrite T1, T2, W1, W2, (proj2 numbers_same), !rowcol_same. cbn [bind].
  eapply both_bind; [apply both_refl|]. intros n ? <-. destruct (filter _ _) as [|p l]; [exact W|].
  pose proof W as (N1 & N2 & _). rewrite N1, N2.
  eapply both_bind; [apply both_refl|]. intros cen ? <-. eapply both_bind; [apply both_refl|]. intros m ? <-.
  apply tab2M_follow. intros r c. eapply both_bind; [apply follow_px; exact W|]. intros u v E. cbn.
  destruct (qltb _ _); [exact E|exact P0].
Qed.

Lemma cseg_same : get_cseg_cutout f1 i k = get_cseg_cutout f2 i k.
Proof.
  unfold get_cseg_cutout, make_composite_image. rewrite S1, S2, T1, T2, (proj1 numbers_same), !rowcol_same, !jacob_same. reflexivity.
Qed.
End Files.
End Follow.

Lemma follow_weights a x y : both (follow (scales_as TWeight a)) x y -> weights_follow a x y.
Proof. destruct x, y; exact (fun H => H). Qed.

Lemma cutout_img_ok f i k t im : get_cutout f i k t = Ok im -> img_ok im.
Proof.
  unfold get_cutout. intros H. apply bind_ok in H. destruct H as (? & _ & H). apply bind_ok in H. destruct H as (? & _ & H).
  apply bind_ok in H. destruct H as (? & _ & H). apply bind_ok in H. destruct H as (? & _ & H). apply (reshape_ok _ _ _ _ H).
Qed.

Lemma pixelwise_follow (P : Q -> Q -> Prop) u v : img_ok u -> pixelwise (fun _ _ x y => P x y) u v -> follow P u v.
Proof.
  intros O (O' & N1 & N2 & H). split; [congruence|]. split; [congruence|]. intros r c.
  destruct (px u r c) as [x|] eqn:E1, (px v r c) as [y|] eqn:E2; try exact I.
  - eapply H; eassumption.
  - pose proof (px_Some_range _ _ _ _ E1) as G. destruct (px_in v r c O') as (y & Y); [lia|lia|]. congruence.
  - pose proof (px_Some_range _ _ _ _ E2) as G. destruct (px_in u r c O) as (y' & Y); [lia|lia|]. congruence.
Qed.

Lemma pixelwise_same t a u v : t = TSeg -> img_ok u -> pixelwise (fun _ _ x y => scales_as t a x y) u v -> u = v.
Proof.
  intros -> O (O' & N1 & N2 & H). apply img_ext; try assumption; try congruence. intros r c R C.
  destruct (px_in u r c O R C) as (x & X). destruct (px_in v r c O') as (y & Y); [lia|lia|]. rewrite X, Y.
  rewrite (H _ _ _ _ X Y). reflexivity.
Qed.

Lemma scale_masked k types1 types2 rows1 rows2 a psf input j1 j2 p f1 f2 :
  make_meds k types1 rows1 psf input j1 p = Ok f1 -> make_meds k types2 rows2 psf input j2 p = Ok f2 ->
  rescaled a rows1 rows2 ->
  Forall (fun o => 1 <= o_box o) input -> Forall (fun r => source_ok (ir_src r)) rows1 ->
  (forall t, t = TWeight \/ t = TSeg -> In t (map fst (m_ext f1)) /\ In t (map fst (m_ext f2))) ->
  forall i c o s s0 row row0, cutout_at f1 i c o s -> cutout_at f1 i 0 o s0 ->
  zget rows1 (s_file s) = Some row -> zget rows1 (s_file s0) = Some row0 ->
  has_file (ir_src row) TWeight -> has_file (ir_src row0) TSeg ->
  (forall b, weights_follow (a (s_file s)) (get_cweight_cutout f1 i c b) (get_cweight_cutout f2 i c b)) /\
  (forall fuel fast, weights_follow (a (s_file s)) (get_uberseg fuel f1 i c fast) (get_uberseg fuel f2 i c fast)) /\
  (has_file (ir_src row) TSeg ->
    (forall b, weights_follow (a (s_file s)) (get_cseg_weight f1 i c b) (get_cseg_weight f2 i c b)) /\
    get_cseg_cutout f1 i c = get_cseg_cutout f2 i c).
Proof.
  intros M1 M2 R Hb Hs HT i c o s s0 row row0 C C0 Z Z0 Hw Hg.
  destruct (HT TWeight (or_introl eq_refl)) as (Tw1 & Tw2). destruct (HT TSeg (or_intror eq_refl)) as (Tg1 & Tg2).
  destruct (scale_cat _ _ _ _ _ _ _ _ _ _ _ _ _ M1 M2 R) as (EC & _).
  assert (EN : m_number_col f1 = m_number_col f2).
  { pose proof M1 as H1. pose proof M2 as H2. apply make_meds_inv in H1. apply make_meds_inv in H2.
    destruct H1 as (? & ? & ? & ? & ? & ? & ? & _ & _ & _ & _ & _ & _ & ->). destruct H2 as (? & ? & ? & ? & ? & ? & ? & _ & _ & _ & _ & _ & _ & ->). reflexivity. }
  assert (PX := scale_pixels _ _ _ _ _ _ _ _ _ _ _ _ _ M1 M2 R Hb Hs).
  destruct (PX _ _ _ _ _ _ C Z Hw Tw1 Tw2) as (w1 & w2 & W1 & W2 & _ & _ & PW).
  destruct (PX _ _ _ _ _ _ C0 Z0 Hg Tg1 Tg2) as (g1 & g2 & G1 & G2 & _ & _ & PG).
  pose proof (pixelwise_same _ _ _ _ eq_refl (cutout_img_ok _ _ _ _ _ G1) PG) as <-.
  pose proof (pixelwise_follow _ _ _ (cutout_img_ok _ _ _ _ _ W1) PW) as FW.
  assert (P0 : scales_as TWeight (a (s_file s)) 0%Q 0%Q) by (cbn; ring).
  split; [intros b; apply follow_weights; eapply cweight_follow; eassumption|].
  split; [intros fuel fast; apply follow_weights; eapply uberseg_follow; eassumption|].
  intros Hk. destruct (PX _ _ _ _ _ _ C Z Hk Tg1 Tg2) as (h1 & h2 & H1 & H2 & _ & _ & PH).
  pose proof (pixelwise_same _ _ _ _ eq_refl (cutout_img_ok _ _ _ _ _ H1) PH) as <-.
  split; [intros b; apply follow_weights; eapply cseg_weight_follow; eassumption|eapply cseg_same; eassumption].
Qed.
