(** Reading and calibrating source images. *)
From Coq Require Import Lia ZifyBool ZifyNat QArith Qfield.
From Verif Require Import Base BaseLemmas Img ImgLemmas Types MakerLayout MakerWrite MakerFile
  SpecTiles SpecLayout SpecFile.
Open Scope Z_scope.

Lemma combine_nth {A B} (l : list A) (l' : list B) n :
  nth_error (combine l l') n =
  match nth_error l n, nth_error l' n with Some a, Some b => Some (a, b) | _, _ => None end.
Proof.
  revert l' n; induction l as [|a l IH]; intros [|b l'] [|n]; simpl; auto.
  - destruct (nth_error l n); reflexivity.
Qed.

Lemma img_zip_ok {A B C} (f : A -> B -> C) a b im : img_ok a -> img_ok b -> img_zip f a b = Ok im ->
  nr a = nr b /\ nc a = nc b /\ img_ok im /\ nr im = nr a /\ nc im = nc a /\
  forall r c, px im r c =
    match px a r c, px b r c with Some x, Some y => Some (f x y) | _, _ => None end.
Proof.
  intros (A1 & A2 & A3) (B1 & B2 & B3) H. unfold img_zip in H. dif_in H E; [|discriminate].
  inversion H; subst; clear H. assert (nr a = nr b /\ nc a = nc b) as [Hr Hc] by lia.
  split; [exact Hr|]. split; [exact Hc|]. split; [|split; [reflexivity|split; [reflexivity|]]].
  - unfold img_ok; simpl. repeat split; auto. rewrite zlen_map. unfold zlen in *. rewrite combine_length.
    rewrite <- Hr, <- Hc in B3. lia.
  - intros r c. unfold px; simpl. rewrite <- Hr, <- Hc. dif E2; [|reflexivity].
    rewrite zget_map. unfold zget. dif E3; [reflexivity|]. rewrite combine_nth.
    destruct (nth_error (dat a) _); [|reflexivity]. destruct (nth_error (dat b) _); reflexivity.
Qed.

Lemma pixelwise_imap {A B} (g : A -> B) (R : Z -> Z -> A -> B -> Prop) im : img_ok im ->
  (forall r c x, px im r c = Some x -> R r c x (g x)) -> pixelwise R im (imap g im).
Proof.
  intros Hok H. split; [apply imap_ok; exact Hok|]. split; [reflexivity|]. split; [reflexivity|].
  intros r c x y Hx Hy. rewrite px_imap, Hx in Hy. simpl in Hy. inversion Hy; subst. apply H; exact Hx.
Qed.

Lemma read_image_calibrated u s t im : source_ok s -> read_image u s t = Ok (Some im) ->
  calibrated u s t im.
Proof.
  intros (S1 & S2 & S3 & S4 & S5 & S6 & S7) H. destruct t; cbn [read_image calibrated] in *.
  - (* image *)
    destruct (src_image s) as [| |raw] eqn:EI; cbn [read_path bind] in H.
    + destruct (src_bkg s); cbn [read_path bind] in H; try destruct (src_bytes s); discriminate.
    + destruct (src_bytes s); cbn [bind] in H; [discriminate|].
      destruct (src_bkg s); cbn [read_path bind] in H; discriminate.
    + exists raw. split; [reflexivity|].
      assert (HB : exists b, read_path (src_bytes s) (src_bkg s) = Ok b /\
        (b = None -> forall r c, bkg_at s r c 0%Q) /\
        (forall bk, b = Some bk -> src_bkg s = PFile bk)).
      { destruct (src_bkg s) as [| |bk] eqn:EB; cbn [read_path] in *.
        - exists None. split; [reflexivity|]. split; [|discriminate]. intros _ r c.
          unfold bkg_at. rewrite EB. reflexivity.
        - destruct (src_bytes s); cbn [bind] in H; [discriminate|]. exists None. split; [reflexivity|].
          split; [|discriminate]. intros _ r c. unfold bkg_at. rewrite EB. reflexivity.
        - exists (Some bk). split; [reflexivity|]. split; [discriminate|]. intros bk' E; inversion E; reflexivity. }
      destruct HB as (b & HB & HN & HS). rewrite HB in H. cbn [bind] in H.
      destruct b as [bk|].
      * apply bind_ok in H. destruct H as (z & Hz & E). inversion E; subst; clear E.
        specialize (HS bk eq_refl). rewrite HS in S2. cbn [path_ok] in *.
        apply img_zip_ok in Hz; [|exact S1|exact S2]. destruct Hz as (Z1 & Z2 & Z3 & Z4 & Z5 & Z6).
        split; [apply imap_ok; exact Z3|]. split; [exact Z4|]. split; [exact Z5|].
        intros r c x y Hx Hy. rewrite px_imap, Z6, Hx in Hy.
        destruct (px bk r c) as [b|] eqn:Eb; [|discriminate]. simpl in Hy. inversion Hy; subst.
        exists b. split; [unfold bkg_at; rewrite HS; exact Eb|]. reflexivity.
      * cbn [bind] in H. inversion H; subst; clear H. apply pixelwise_imap; [exact S1|].
        intros r c x Hx. exists 0%Q. split; [apply HN; reflexivity|]. field.
  - (* weight *)
    assert (GZ : forall (w0 : option (img Q)),
       match w0 with
       | None => Err TypeError
       | Some im => if Qeq_bool (src_scale s) 0 then Err ZeroDivisionError
                    else Ok (Some (imap (fun x => (x * (1 / (src_scale s * src_scale s)))%Q) im))
       end = Ok (Some im) ->
       exists w, w0 = Some w /\ ~ (src_scale s == 0)%Q /\
         im = imap (fun x => (x * (1 / (src_scale s * src_scale s)))%Q) w).
    { intros [w|] E; [|discriminate]. destruct (Qeq_bool (src_scale s) 0) eqn:EQ; [discriminate|].
      exists w. split; [reflexivity|]. split; [|inversion E; reflexivity].
      intros HQ. apply Qeq_bool_iff in HQ. congruence. }
    assert (FLD : forall x, ~ (src_scale s == 0)%Q ->
       (x * (1 / (src_scale s * src_scale s)) * (src_scale s * src_scale s) == x)%Q).
    { intros x Hs. field. exact Hs. }
    apply bind_ok in H. destruct H as (w0 & Hw0 & H).
    apply bind_ok in H. destruct H as (w1 & Hw1 & H).
    apply GZ in H. destruct H as (w & -> & Hsc & ->).
    assert (NOBAD : w0 = Some w -> (forall r c, ~ unusable_at u s r c) ->
       exists raw, src_weight s = PFile raw /\
         pixelwise (fun r c x y => (unusable_at u s r c -> (y == 0)%Q) /\
          (~ unusable_at u s r c -> (y * (src_scale s * src_scale s) == x)%Q)) raw
          (imap (fun x => (x * (1 / (src_scale s * src_scale s)))%Q) w)).
    { intros -> Hno. destruct (src_weight s) as [| |raw] eqn:EW; cbn [read_path] in Hw0.
      - discriminate.
      - destruct (src_bytes s); discriminate.
      - inversion Hw0; subst. exists w. split; [reflexivity|].
        apply pixelwise_imap; [exact S3|]. intros r c x Hx. split.
        + intros Hu. exfalso. eapply Hno; exact Hu.
        + intros _. apply FLD; exact Hsc. }
    destruct u as [bad|].
    + destruct (src_bmask s) as [| |bm] eqn:EB; cbn [read_path bind] in Hw1.
      * inversion Hw1; subst. apply NOBAD; [reflexivity|].
        intros r c (x & y & z & _ & E & _). rewrite EB in E. discriminate.
      * destruct (src_bytes s) eqn:ES; cbn [bind] in Hw1; [discriminate|]. inversion Hw1; subst.
        apply NOBAD; [reflexivity|]. intros r c (x & y & z & _ & E & _). rewrite EB in E. discriminate.
      * destruct w0 as [raw|]; [|discriminate]. apply bind_ok in Hw1. destruct Hw1 as (z & Hz & E).
        inversion E; subst; clear E.
        assert (EW : src_weight s = PFile raw).
        { destruct (src_weight s) as [| |raw'] eqn:EW; cbn [read_path] in Hw0.
          - discriminate.
          - destruct (src_bytes s); discriminate.
          - inversion Hw0; subst; reflexivity. }
        exists raw. split; [exact EW|]. rewrite EW in S3. cbn [path_ok] in *.
        apply img_zip_ok in Hz; [|exact S3|exact S5]. destruct Hz as (Z1 & Z2 & Z3 & Z4 & Z5 & Z6).
        split; [apply imap_ok; exact Z3|]. split; [exact Z4|]. split; [exact Z5|].
        intros r c x y Hx Hy. rewrite px_imap, Z6, Hx in Hy.
        destruct (px bm r c) as [b|] eqn:Eb; [|discriminate]. simpl in Hy. inversion Hy; subst; clear Hy.
        destruct (Z.land b bad =? 0) eqn:EL; cbn [negb].
        -- split.
           ++ intros (bad' & bm' & b' & U1 & U2 & U3 & U4). inversion U1; subst.
              rewrite EB in U2. inversion U2; subst. rewrite Eb in U3. inversion U3; subst. lia.
           ++ intros _. apply FLD; exact Hsc.
        -- split.
           ++ intros _. field. exact Hsc.
           ++ intros Hn. exfalso. apply Hn. exists bad, bm, b.
              split; [reflexivity|]. split; [exact EB|]. split; [exact Eb|]. lia.
    + inversion Hw1; subst. apply NOBAD; [reflexivity|].
      intros r c (x & y & z & E & _). discriminate.
  - destruct (src_seg s) as [| |raw] eqn:E; cbn [read_path bind option_map] in H.
    + discriminate.
    + destruct (src_bytes s); discriminate.
    + inversion H; subst. exists raw. split; [reflexivity|]. apply pixelwise_imap; [exact S4|]. reflexivity.
  - destruct (src_bmask s) as [| |raw] eqn:E; cbn [read_path bind option_map] in H.
    + discriminate.
    + destruct (src_bytes s); discriminate.
    + inversion H; subst. exists raw. split; [reflexivity|]. apply pixelwise_imap; [exact S5|]. reflexivity.
  - destruct (src_ormask s) as [| |raw] eqn:E; cbn [read_path bind option_map] in H.
    + discriminate.
    + destruct (src_bytes s); discriminate.
    + inversion H; subst. exists raw. split; [reflexivity|]. apply pixelwise_imap; [exact S6|]. reflexivity.
  - destruct (src_noise s) as [| |raw] eqn:E; cbn [read_path] in H.
    + discriminate.
    + destruct (src_bytes s); discriminate.
    + inversion H; subst. exists im. split; [reflexivity|]. split; [exact S7|].
      split; [reflexivity|]. split; [reflexivity|]. intros r c x y Hx Hy. congruence.
Qed.

Lemma calibrated_ok u s t im : calibrated u s t im -> img_ok im.
Proof. destruct t; intros (raw & _ & H & _); exact H. Qed.

(** A supplied file is never skipped. *)
Lemma read_image_has_file u s t o : read_image u s t = Ok o -> has_file s t -> exists im, o = Some im.
Proof.
  intros H Hf. destruct t; cbn [read_image has_file] in *; destruct Hf as (raw & E).
  - rewrite E in H. cbn [read_path bind] in H. apply bind_ok in H. destruct H as (b & _ & H).
    apply bind_ok in H. destruct H as (z & _ & H). inversion H. eexists; reflexivity.
  - apply bind_ok in H. destruct H as (w & _ & H). apply bind_ok in H. destruct H as (w1 & _ & H).
    destruct w1; [|discriminate]. destruct (Qeq_bool _ _); [discriminate|]. inversion H. eexists; reflexivity.
  - rewrite E in H. cbn [read_path bind option_map] in H. inversion H. eexists; reflexivity.
  - rewrite E in H. cbn [read_path bind option_map] in H. inversion H. eexists; reflexivity.
  - rewrite E in H. cbn [read_path bind option_map] in H. inversion H. eexists; reflexivity.
  - rewrite E in H. cbn [read_path bind option_map] in H. inversion H. eexists; reflexivity.
Qed.
