(** The loop of outlier rejection. *)
From Coq Require Import Reals Lra Lia ZifyBool ZifyNat Permutation Sorted.
From Verif Require Import Base BaseLemmas Img ImgLemmas Outlier SpecFile SpecOutlier OutlierLemmas.
Open Scope Z_scope.

Lemma upd_upd {A} (l : list A) i a b : upd (upd l i a) i b = upd l i b.
Proof. revert i. induction l as [|x l IH]; intros [|i]; cbn [upd]; [reflexivity..|]. rewrite IH. reflexivity. Qed.

Lemma shape_eqb_true {A B} (a : img A) (b : img B) : shape_eqb a b = true <-> nr a = nr b /\ nc a = nc b.
Proof. unfold shape_eqb. rewrite andb_true_iff, !Z.eqb_eq. reflexivity. Qed.

Lemma upd_other {A} (l : list A) i j a : i <> j -> nth_error (upd l i a) j = nth_error l j.
Proof. intros H. rewrite nth_error_upd. replace (i =? j)%nat with false by lia. reflexivity. Qed.

Lemma upd_here {A} (l : list A) i a x : nth_error l i = Some x -> nth_error (upd l i a) i = Some a.
Proof.
  intros H. rewrite nth_error_upd. replace (i =? i)%nat with true by lia.
  assert (i < length l)%nat by (apply nth_error_Some; congruence). replace (i <? length l)%nat with true by lia. reflexivity.
Qed.

Lemma Forall_upd {A} (P : A -> Prop) (l : list A) i a : Forall P l -> P a -> Forall P (upd l i a).
Proof.
  intros H. revert i. induction H as [|x l Hx H IH]; intros [|i] Ha; cbn [upd]; constructor; auto.
Qed.

Lemma Forall_nth {A} (P : A -> Prop) (l : list A) i a : Forall P l -> nth_error l i = Some a -> P a.
Proof. intros H E. rewrite Forall_forall in H. apply H. eapply nth_error_In. exact E. Qed.

Definition sel (p : R * bool) : R := if snd p then 0%R else fst p.

Section Loop.
  Context (med : img R) (nsigma A : R) (imlist wtlist : list nat).

  Lemma step_char st i a b im wt : img_ok med -> nth_error imlist i = Some a -> nth_error wtlist i = Some b -> a <> b ->
    nth_error st a = Some im -> nth_error st b = Some wt -> img_ok im -> img_ok wt ->
    nr im = nr med -> nc im = nc med -> nr wt = nr med -> nc wt = nc med ->
    exists out, img_ok out /\ nr out = nr med /\ nc out = nc med /\
      (forall r c m x v, px med r c = Some m -> px im r c = Some x -> px wt r c = Some v ->
         px out r c = Some (Rmax 0 v, is_outlier nsigma A m x (Rmax 0 v))) /\
      reject_step med nsigma A imlist wtlist st i = (upd st b (imap sel out), Ok (zlen (filter snd (dat out)))).
  Proof.
    intros Hm Ea Eb Hab Eim Ewt Oim Owt S1 S2 S3 S4. pose proof Hm as (M1 & M2 & _).
    destruct (tab2M_exists (nr med) (nc med) (fun r c =>
                  let* m := px_res med r c in
                  let* x := px_res im r c in
                  let* v := px_res (imap (Rmax 0) wt) r c in
                  Ok (v, is_outlier nsigma A m x v)) M1 M2) as (out & Hout).
    { intros r c Hr Hc. destruct (px_in med r c Hm Hr Hc) as (m & Em). destruct (px_in im r c Oim) as (x & Ex); [lia|lia|].
      destruct (px_in wt r c Owt) as (v & Ev); [lia|lia|]. unfold px_res. rewrite px_imap, Em, Ex, Ev. cbn. eexists; reflexivity. }
    pose proof (tab2M_ok _ _ _ _ M1 M2 Hout) as (O1 & O2 & O3 & O4).
    exists out. split; [exact O1|]. split; [exact O2|]. split; [exact O3|]. split.
    - intros r c m x v Em Ex Ev. destruct (px_Some_range _ _ _ _ Em) as [R1 R2]. destruct (O4 r c R1 R2) as (p & Hp & Ep).
      unfold px_res in Hp. rewrite px_imap, Em, Ex, Ev in Hp. cbn in Hp. inversion Hp; subst. exact Ep.
    - unfold reject_step. rewrite Ea, Eb, Ewt. cbv zeta. unfold load. rewrite upd_other by congruence. rewrite Eim.
      replace (shape_eqb med im) with true by (symmetry; apply shape_eqb_true; lia).
      replace (shape_eqb med (imap (Rmax 0) wt)) with true by (symmetry; apply shape_eqb_true; cbn; lia). cbn [andb].
      rewrite Hout, upd_upd. reflexivity.
  Qed.

  Lemma step_inv st i st1 k : reject_step med nsigma A imlist wtlist st i = (st1, Ok k) ->
    (forall a, In a imlist -> ~ In a wtlist) ->
    exists a b im wt, nth_error imlist i = Some a /\ nth_error wtlist i = Some b /\ a <> b /\
      nth_error st a = Some im /\ nth_error st b = Some wt /\
      nr im = nr med /\ nc im = nc med /\ nr wt = nr med /\ nc wt = nc med.
  Proof.
    intros H HD. unfold reject_step in H. destruct (nth_error imlist i) as [a|] eqn:Ea; [|inversion H].
    destruct (nth_error wtlist i) as [b|] eqn:Eb; [|inversion H]. destruct (nth_error st b) as [wt|] eqn:Ewt; [|inversion H].
    assert (Hab : a <> b). { intros ->. apply (HD b); eapply nth_error_In; eassumption. }
    cbv zeta in H. unfold load in H. rewrite upd_other in H by congruence. destruct (nth_error st a) as [im|] eqn:Eim; [|inversion H].
    destruct (shape_eqb med im && shape_eqb med (imap (Rmax 0) wt)) eqn:E; [|inversion H].
    apply andb_true_iff in E. destruct E as [E1 E2]. apply shape_eqb_true in E1. apply shape_eqb_true in E2. cbn in E2.
    exists a, b, im, wt. repeat split; try assumption; try lia.
  Qed.

  (** Nothing to reject for image [i]. *)
  Definition stable (st : store) (i : nat) : Prop := forall a b im wt,
    nth_error imlist i = Some a -> nth_error wtlist i = Some b -> nth_error st a = Some im -> nth_error st b = Some wt ->
    nr im = nr med /\ nc im = nc med /\ nr wt = nr med /\ nc wt = nc med /\
    forall r c m x v, px med r c = Some m -> px im r c = Some x -> px wt r c = Some v ->
      (0 <= v)%R /\ is_outlier nsigma A m x v = false.

  Lemma zero_kept m x : is_outlier nsigma A m x 0 = false.
  Proof.
    unfold is_outlier. apply rltb_false. rewrite Rmult_0_r.
    pose proof (Rle_0_sqr (Rabs m * A * sqrt 0 + nsigma)) as H. exact H.
  Qed.

  Context (HM : img_ok med) (HD : forall a, In a imlist -> ~ In a wtlist).

  Lemma step_effect st i st1 k : Forall img_ok st -> reject_step med nsigma A imlist wtlist st i = (st1, Ok k) ->
    Forall img_ok st1 /\ stable st1 i /\ (forall j, stable st j -> stable st1 j) /\
    (forall a, ~ In a wtlist -> nth_error st1 a = nth_error st a).
  Proof using HM HD.
    intros HS H. destruct (step_inv st i st1 k H HD) as (a & b & im & wt & Ea & Eb & Hab & Eim & Ewt & S1 & S2 & S3 & S4).
    pose proof (Forall_nth _ _ _ _ HS Eim) as Oim. pose proof (Forall_nth _ _ _ _ HS Ewt) as Owt.
    destruct (step_char st i a b im wt HM Ea Eb Hab Eim Ewt Oim Owt S1 S2 S3 S4) as (out & O1 & O2 & O3 & O4 & O5).
    rewrite O5 in H. inversion H; subst st1 k; clear H.
    assert (Ib : In b wtlist) by (eapply nth_error_In; exact Eb).
    split; [apply Forall_upd; [exact HS|apply imap_ok; exact O1]|]. split; [|split].
    - intros a' b' im' wt' Ea' Eb' Eim' Ewt'. rewrite Ea in Ea'. inversion Ea'; subst a'. rewrite Eb in Eb'. inversion Eb'; subst b'.
      rewrite upd_other in Eim' by congruence. rewrite Eim in Eim'. inversion Eim'; subst im'.
      rewrite (upd_here _ _ _ _ Ewt) in Ewt'. inversion Ewt'; subst wt'. cbn [imap nr nc].
      split; [exact S1|]. split; [exact S2|]. split; [lia|]. split; [lia|]. intros r c m x v Em Ex Ev.
      change (mkImg (nr out) (nc out) (map sel (dat out))) with (imap sel out) in Ev.
      destruct (px_Some_range _ _ _ _ Em) as [R1 R2]. destruct (px_in wt r c Owt) as (w & Ew); [lia|lia|].
      rewrite px_imap, (O4 r c m x w Em Ex Ew) in Ev. cbn in Ev. unfold sel in Ev. cbn [fst snd] in Ev. inversion Ev; subst v.
      destruct (is_outlier nsigma A m x (Rmax 0 w)) eqn:E; [split; [lra|apply zero_kept]|]. split; [apply Rmax_l|exact E].
    - intros j Hj a' b' im' wt' Ea' Eb' Eim' Ewt'.
      assert (a' <> b). { intros ->. apply (HD b); [eapply nth_error_In; exact Ea'|exact Ib]. }
      rewrite upd_other in Eim' by congruence. destruct (Nat.eq_dec b b') as [<-|Hb].
      + rewrite (upd_here _ _ _ _ Ewt) in Ewt'. inversion Ewt'; subst wt'.
        destruct (Hj a' b im' wt Ea' Eb' Eim' Ewt) as (T1 & T2 & T3 & T4 & T5). cbn [imap nr nc].
        split; [exact T1|]. split; [exact T2|]. split; [lia|]. split; [lia|]. intros r c m x v Em Ex Ev.
        change (mkImg (nr out) (nc out) (map sel (dat out))) with (imap sel out) in Ev.
        destruct (px_Some_range _ _ _ _ Em) as [R1 R2]. destruct (px_in wt r c Owt) as (w & Ew); [lia|lia|].
        destruct (px_in im r c Oim) as (y & Ey); [lia|lia|].
        rewrite px_imap, (O4 r c m y w Em Ey Ew) in Ev. cbn in Ev. unfold sel in Ev. cbn [fst snd] in Ev. inversion Ev; subst v.
        destruct (T5 r c m x w Em Ex Ew) as (P1 & P2). rewrite (Rmax_right 0 w) by exact P1.
        destruct (is_outlier nsigma A m y w); [split; [lra|apply zero_kept]|split; assumption].
      + rewrite upd_other in Ewt' by exact Hb. exact (Hj a' b' im' wt' Ea' Eb' Eim' Ewt').
    - intros c Hc. rewrite upd_other; [reflexivity|]. intros ->. contradiction.
  Qed.

  Lemma loop_effect is : forall st n st1 n1, Forall img_ok st ->
    reject_loop med nsigma A imlist wtlist is st n = (st1, Ok n1) ->
    Forall img_ok st1 /\ (forall i, In i is -> stable st1 i) /\ (forall j, stable st j -> stable st1 j) /\
    (forall a, ~ In a wtlist -> nth_error st1 a = nth_error st a) /\
    (forall i, In i is -> exists a b im wt, nth_error imlist i = Some a /\ nth_error wtlist i = Some b /\ nth_error st1 a = Some im /\ nth_error st1 b = Some wt).
  Proof using HM HD.
    induction is as [|i is IH]; intros st n st1 n1 HS H; cbn [reject_loop] in H.
    - inversion H; subst. split; [exact HS|]. split; [intros i []|]. split; [auto|]. split; [auto|intros i []].
    - destruct (reject_step med nsigma A imlist wtlist st i) as [st' [k|e]] eqn:E; [|inversion H].
      destruct (step_effect st i st' k HS E) as (F1 & F2 & F3 & F4).
      destruct (IH st' _ st1 n1 F1 H) as (G1 & G2 & G3 & G4 & G5). split; [exact G1|]. split; [|split; [|split]].
      + intros j [<-|Hj]; [apply G3; exact F2|apply G2; exact Hj].
      + intros j Hj. apply G3, F3, Hj.
      + intros a Ha. rewrite G4 by exact Ha. apply F4; exact Ha.
      + intros j [<-|Hj]; [|apply G5; exact Hj].
        destruct (step_inv st i st' k E HD) as (a & b & im & wt & Ea & Eb & Hab & Eim & Ewt & _).
        assert (La : nth_error st1 a = Some im).
        { assert (~ In a wtlist) by (apply HD; eapply nth_error_In; exact Ea). rewrite G4, F4 by assumption. exact Eim. }
        destruct (nth_error st1 b) as [wt1|] eqn:E1; [exists a, b, im, wt1; auto|]. exfalso.
        assert (L : length st1 = length st).
        { clear -E H. assert (LS : forall st i, length (fst (reject_step med nsigma A imlist wtlist st i)) = length st).
          { clear. intros st i. unfold reject_step. destruct (nth_error imlist i); [|reflexivity]. destruct (nth_error wtlist i); [|reflexivity].
            destruct (nth_error st _); [|reflexivity]. cbv zeta. destruct (load _ _); [|cbn; apply upd_length].
            destruct (_ && _); [|cbn; apply upd_length]. destruct (tab2M _ _ _); cbn; rewrite ?upd_length; reflexivity. }
          assert (LL : forall is st n, length (fst (reject_loop med nsigma A imlist wtlist is st n)) = length st).
          { clear -LS. induction is as [|i is IH]; intros st n; cbn [reject_loop]; [reflexivity|].
            specialize (LS st i). destruct (reject_step med nsigma A imlist wtlist st i) as [st' [k|e]]; cbn in LS |- *; [rewrite IH|]; exact LS. }
          specialize (LL is st' (n + k)). rewrite H in LL. cbn in LL. rewrite LL. specialize (LS st i). rewrite E in LS. exact LS. }
        assert (b < length st)%nat by (apply nth_error_Some; congruence). apply nth_error_None in E1. lia.
  Qed.

  Lemma stable_step st i a b im wt : Forall img_ok st -> stable st i ->
    nth_error imlist i = Some a -> nth_error wtlist i = Some b -> nth_error st a = Some im -> nth_error st b = Some wt ->
    reject_step med nsigma A imlist wtlist st i = (st, Ok 0).
  Proof using HM HD.
    intros HS Hst Ea Eb Eim Ewt. destruct (Hst a b im wt Ea Eb Eim Ewt) as (S1 & S2 & S3 & S4 & S5).
    assert (Hab : a <> b). { intros ->. apply (HD b); eapply nth_error_In; eassumption. }
    pose proof (Forall_nth _ _ _ _ HS Eim) as Oim. pose proof (Forall_nth _ _ _ _ HS Ewt) as Owt.
    destruct (step_char st i a b im wt HM Ea Eb Hab Eim Ewt Oim Owt S1 S2 S3 S4) as (out & O1 & O2 & O3 & O4 & O5).
    rewrite O5.
    assert (HP : forall r c v, px wt r c = Some v -> px out r c = Some (v, false)).
    { intros r c v Ev. destruct (px_Some_range _ _ _ _ Ev) as [R1 R2]. destruct (px_in med r c HM) as (m & Em); [lia|lia|].
      destruct (px_in im r c Oim) as (x & Ex); [lia|lia|]. rewrite (O4 r c m x v Em Ex Ev).
      destruct (S5 r c m x v Em Ex Ev) as (P1 & P2). rewrite (Rmax_right 0 v) by exact P1. rewrite P2. reflexivity. }
    f_equal; [|f_equal].
    - replace (imap sel out) with wt; [apply upd_same; exact Ewt|]. apply img_ext; [exact Owt|apply imap_ok; exact O1|cbn; lia|cbn; lia|].
      intros r c R1 R2. destruct (px_in wt r c Owt R1 R2) as (v & Ev). rewrite px_imap, (HP r c v Ev), Ev. reflexivity.
    - destruct (count_px snd out O1) as (L & _ & HL & <-). destruct L as [|[r c] L]; [reflexivity|]. exfalso.
      destruct (proj1 (HL r c) (or_introl eq_refl)) as (p & Ep & Fp). destruct (px_Some_range _ _ _ _ Ep) as [R1 R2].
      destruct (px_in wt r c Owt) as (v & Ev); [lia|lia|]. rewrite (HP r c v Ev) in Ep. inversion Ep; subst p. discriminate.
  Qed.

  Lemma stable_loop is : forall st n, Forall img_ok st ->
    (forall i, In i is -> stable st i /\ exists a b im wt, nth_error imlist i = Some a /\ nth_error wtlist i = Some b /\ nth_error st a = Some im /\ nth_error st b = Some wt) ->
    reject_loop med nsigma A imlist wtlist is st n = (st, Ok n).
  Proof using HM HD.
    induction is as [|i is IH]; intros st n HS H; cbn [reject_loop]; [reflexivity|].
    destruct (H i (or_introl eq_refl)) as (H1 & a & b & im & wt & H2 & H3 & H4 & H5).
    rewrite (stable_step st i a b im wt HS H1 H2 H3 H4 H5). rewrite IH; [f_equal; f_equal; lia|exact HS|].
    intros j Hj. apply H. right. exact Hj.
  Qed.
End Loop.

Lemma stack_median_ok st imlist med : Forall img_ok st -> stack_median st imlist = Ok med -> img_ok med.
Proof.
  intros HS H. unfold stack_median in H. destruct (mapM (load st) imlist) as [ims|] eqn:E; cbn [bind] in H; [|discriminate].
  destruct ims as [|im0 ims]; [discriminate|]. destruct (forallb (shape_eqb im0) (im0 :: ims)); [|discriminate].
  assert (O : img_ok im0).
  { destruct imlist as [|a l]; [discriminate|]. cbn [mapM] in E. unfold load at 1 in E. destruct (nth_error st a) eqn:Ea; [|discriminate].
    cbn [bind] in E. destruct (mapM (load st) l); cbn [bind] in E; inversion E; subst. eapply Forall_nth; eassumption. }
  destruct O as (O1 & O2 & _). apply tab2M_ok in H; [apply H|exact O1|exact O2].
Qed.

Lemma reject_idempotent imlist wtlist nsigma A st st1 n : Forall img_ok st -> (forall a, In a imlist -> ~ In a wtlist) ->
  reject_outliers imlist wtlist nsigma A st = (st1, Ok n) ->
  reject_outliers imlist wtlist nsigma A st1 = (st1, Ok 0).
Proof.
  intros HS HD H. unfold reject_outliers in *. destruct (zlen imlist <? 3); [inversion H; reflexivity|].
  destruct (stack_median st imlist) as [med|e] eqn:E; [|inversion H].
  pose proof (stack_median_ok st imlist med HS E) as HM.
  destruct (loop_effect med nsigma A imlist wtlist HM HD _ _ _ _ _ HS H) as (G1 & G2 & G3 & G4 & G5).
  assert (E1 : stack_median st1 imlist = Ok med).
  { rewrite <- E. unfold stack_median. f_equal. apply mapM_ext_in. intros a Ha. unfold load. rewrite G4 by (apply HD; exact Ha). reflexivity. }
  rewrite E1. apply stable_loop; [exact HM|exact HD|exact G1|]. intros i Hi. split; [apply G2; exact Hi|apply G5; exact Hi].
Qed.
