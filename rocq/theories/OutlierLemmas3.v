(** The result of outlier rejection. *)
From Coq Require Import Reals Lra Lia ZifyBool ZifyNat Permutation Sorted.
From Verif Require Import Base BaseLemmas Img ImgLemmas Outlier SpecFile SpecOutlier OutlierLemmas OutlierLemmas2.
Open Scope Z_scope.

Lemma mapM_ok_exists {X Y} (f : X -> res Y) xs : (forall x, In x xs -> exists y, f x = Ok y) -> exists ys, mapM f xs = Ok ys.
Proof.
  induction xs as [|x xs IH]; intros H; [exists []; reflexivity|]. cbn [mapM].
  destruct (H x (or_introl eq_refl)) as (y & Ey). destruct IH as (ys & Eys); [intros z Hz; apply H; right; exact Hz|].
  rewrite Ey, Eys. exists (y :: ys). reflexivity.
Qed.

Lemma NoDup_app_intro {X} (l l' : list X) : NoDup l -> NoDup l' -> (forall x, In x l -> ~ In x l') -> NoDup (l ++ l').
Proof.
  induction l as [|x l IH]; intros H1 H2 H; [exact H2|]. inversion H1; subst. cbn [app]. constructor.
  - rewrite in_app_iff. intros [C|C]; [contradiction|]. exact (H x (or_introl eq_refl) C).
  - apply IH; [assumption|assumption|]. intros y Hy. apply H. right. exact Hy.
Qed.

Lemma stack_median_exists st imlist h w : imlist <> [] -> (forall a, In a imlist -> array_at st h w a) ->
  exists med, stack_median st imlist = Ok med /\ img_ok med /\ nr med = h /\ nc med = w /\
    forall r c m, px med r c = Some m ->
      exists vals, Forall2 (fun a x => at_px st a r c x) imlist vals /\ median_of vals m.
Proof.
  intros Hne HA.
  destruct (mapM_ok_exists (load st) imlist) as (ims & Hims).
  { intros a Ha. destruct (HA a Ha) as (im & E & _). exists im. unfold load. rewrite E. reflexivity. }
  assert (HF : Forall2 (fun a im => nth_error st a = Some im /\ img_ok im /\ nr im = h /\ nc im = w) imlist ims).
  { apply mapM_ok_Forall2 in Hims. clear Hne. induction Hims as [|a im l l' H1 H2 IH]; constructor.
    - unfold load in H1. destruct (HA a (or_introl eq_refl)) as (im' & E & O). rewrite E in H1. inversion H1; subst. auto.
    - apply IH. intros b Hb. apply HA. right. exact Hb. }
  unfold stack_median. rewrite Hims. cbn [bind]. destruct HF as [|a0 im0 l l' (E0 & O0 & Hh & Hw) HF]; [congruence|].
  assert (HS : forallb (shape_eqb im0) (im0 :: l') = true).
  { apply forallb_forall. intros x Hx. apply shape_eqb_true. destruct Hx as [<-|Hx]; [auto|].
    clear -HF Hx Hh Hw. induction HF as [|a im q q' H1 HF IH]; [destruct Hx|]. destruct Hx as [<-|Hx]; [lia|auto]. }
  rewrite HS. pose proof O0 as (P1 & P2 & _).
  assert (HV : forall r c, 0 <= r < h -> 0 <= c < w -> exists vals, mapM (fun im => px_res im r c) (im0 :: l') = Ok vals /\
     Forall2 (fun a x => at_px st a r c x) (a0 :: l) vals).
  { intros r c Hr Hc.
    assert (HF2 : Forall2 (fun a im => nth_error st a = Some im /\ img_ok im /\ nr im = h /\ nc im = w) (a0 :: l) (im0 :: l'))
      by (constructor; auto).
    clear -HF2 Hr Hc. induction HF2 as [|a im q q' (E & O & H1 & H2) HF IH]; [exists []; split; [reflexivity|constructor]|].
    destruct IH as (vals & V1 & V2). destruct (px_in im r c O) as (x & Ex); [lia|lia|]. exists (x :: vals). cbn [mapM].
    unfold px_res at 1. rewrite Ex. cbn [bind]. rewrite V1. split; [reflexivity|]. constructor; [exists im; auto|exact V2]. }
  destruct (tab2M_exists (nr im0) (nc im0) (fun r c => let* vs := mapM (fun im => px_res im r c) (im0 :: l') in median vs) P1 P2) as (med & Hmed).
  { intros r c Hr Hc. destruct (HV r c) as (vals & V1 & V2); [lia|lia|]. rewrite V1. cbn [bind].
    destruct (median_ok vals) as (m & Hm & _); [inversion V2; discriminate|]. exists m. exact Hm. }
  exists med. split; [exact Hmed|]. apply tab2M_ok in Hmed; [|exact P1|exact P2]. destruct Hmed as (O1 & O2 & O3 & O4).
  split; [exact O1|]. split; [lia|]. split; [lia|]. intros r c m Em. destruct (px_Some_range _ _ _ _ Em) as [R1 R2].
  destruct (O4 r c ltac:(lia) ltac:(lia)) as (m' & Hm' & Em'). rewrite Em in Em'. inversion Em'; subst m'.
  destruct (HV r c) as (vals & V1 & V2); [lia|lia|]. rewrite V1 in Hm'. cbn [bind] in Hm'.
  exists vals. split; [exact V2|]. destruct (median_ok vals) as (m' & Hm & Hm2); [inversion V2; discriminate|].
  rewrite Hm in Hm'. inversion Hm'; subst. exact Hm2.
Qed.

Section Loop.
  Context (med : img R) (nsigma A : R) (imlist wtlist : list nat) (h w : Z)
    (HM : img_ok med) (Hh : nr med = h) (Hw : nc med = w)
    (HD : forall a, In a imlist -> ~ In a wtlist) (ND : NoDup wtlist) (LE : length wtlist = length imlist)
    (Hn : (0 <= nsigma)%R) (HA : (0 <= A)%R).

  (** The pixel (r, c) of image [i] is an outlier. *)
  Definition rejected (st : store) (i : nat) (r c : Z) : Prop :=
    exists a b m x v, nth_error imlist i = Some a /\ nth_error wtlist i = Some b /\
      px med r c = Some m /\ at_px st a r c x /\ at_px st b r c v /\ outlier nsigma A m x v.

  Definition new_weight (st st' : store) (i : nat) : Prop := forall a b im wt,
    nth_error imlist i = Some a -> nth_error wtlist i = Some b -> nth_error st a = Some im -> nth_error st b = Some wt ->
    exists wt', nth_error st' b = Some wt' /\
      pixelwise (fun r c v v' => forall m x, px med r c = Some m -> px im r c = Some x ->
        (outlier nsigma A m x v -> v' = 0%R) /\ (~ outlier nsigma A m x v -> v' = Rmax 0 v)) wt wt'.

  Lemma loop_ok is : forall st n, NoDup is -> (forall i, In i is -> (i < length imlist)%nat) ->
    (forall a, In a imlist -> array_at st h w a) -> (forall b, In b wtlist -> array_at st h w b) ->
    exists st' n' L, reject_loop med nsigma A imlist wtlist is st n = (st', Ok n') /\
      length st' = length st /\
      (forall a, ~ (exists i, In i is /\ nth_error wtlist i = Some a) -> nth_error st' a = nth_error st a) /\
      (forall i, In i is -> new_weight st st' i) /\
      NoDup L /\ (forall i r c, In (i, r, c) L <-> In i is /\ rejected st i r c) /\ n' = n + zlen L.
  Proof using HM Hh Hw HD ND LE Hn HA.
    induction is as [|i is IH]; intros st n NI HI Him Hwt.
    - exists st, n, []. cbn [reject_loop]. split; [reflexivity|]. split; [reflexivity|]. split; [reflexivity|].
      split; [intros i []|]. split; [constructor|]. split; [|unfold zlen; cbn; lia]. intros i r c. split; [intros []|intros ([] & _)].
    - inversion NI as [|? ? NI1 NI2]; subst. specialize (HI i (or_introl eq_refl)) as Hi.
      destruct (nth_error imlist i) as [a|] eqn:Ea; [|apply nth_error_None in Ea; lia].
      destruct (nth_error wtlist i) as [b|] eqn:Eb; [|apply nth_error_None in Eb; lia].
      assert (Ia : In a imlist) by (eapply nth_error_In; exact Ea). assert (Ib : In b wtlist) by (eapply nth_error_In; exact Eb).
      assert (Hab : a <> b) by (intros ->; exact (HD b Ia Ib)).
      destruct (Him a Ia) as (im & Eim & Oim & I1 & I2). destruct (Hwt b Ib) as (wt & Ewt & Owt & W1 & W2).
      destruct (step_char med nsigma A imlist wtlist st i a b im wt HM Ea Eb Hab Eim Ewt Oim Owt) as (out & O1 & O2 & O3 & O4 & O5);
        [lia|lia|lia|lia|].
      set (st1 := upd st b (imap sel out)) in *.
      assert (HO : forall c, c <> b -> nth_error st1 c = nth_error st c) by (intros c Hc; apply upd_other; congruence).
      assert (Hb1 : nth_error st1 b = Some (imap sel out)) by (eapply upd_here; exact Ewt).
      assert (HIM : forall c, In c imlist -> nth_error st1 c = nth_error st c) by (intros c Hc; apply HO; intros ->; exact (HD b Hc Ib)).
      assert (HWJ : forall j c, In j is -> nth_error wtlist j = Some c -> c <> b).
      { intros j c Hj Ec ->. apply NI1. replace i with j; [exact Hj|].
        apply (proj1 (NoDup_nth_error wtlist) ND); [apply nth_error_Some; congruence|congruence]. }
      destruct (IH st1 (n + zlen (filter snd (dat out)))) as (st' & n' & L & R1 & R2 & R3 & R4 & R5 & R6 & R7).
      { exact NI2. }
      { intros j Hj. apply HI. right. exact Hj. }
      { intros c Hc. destruct (Him c Hc) as (x & E & X). exists x. rewrite HIM by exact Hc. auto. }
      { intros c Hc. destruct (Nat.eq_dec c b) as [->|Hcb].
        - exists (imap sel out). split; [exact Hb1|]. split; [apply imap_ok; exact O1|]. cbn. lia.
        - destruct (Hwt c Hc) as (x & E & X). exists x. rewrite HO by exact Hcb. auto. }
      destruct (count_px snd out O1) as (L1 & N1 & HL1 & Z1).
      assert (HRJ : forall j r c, In j is -> rejected st1 j r c <-> rejected st j r c).
      { intros j r c Hj. unfold rejected, at_px.
        split; intros (a' & b' & m & x & v & E1 & E2 & E3 & E4 & E5 & E6); exists a', b', m, x, v;
          pose proof (HIM a' (nth_error_In _ _ E1)) as Q1; pose proof (HO b' (HWJ j b' Hj E2)) as Q2;
          rewrite ?Q1, ?Q2 in *; tauto. }
      assert (HRI : forall r c, In (r, c) L1 <-> rejected st i r c).
      { intros r c. rewrite HL1. split.
        - intros (p & Ep & Fp). destruct (px_Some_range _ _ _ _ Ep) as [Q1 Q2].
          destruct (px_in med r c HM) as (m & Em); [lia|lia|]. destruct (px_in im r c Oim) as (x & Ex); [lia|lia|].
          destruct (px_in wt r c Owt) as (v & Ev); [lia|lia|]. rewrite (O4 r c m x v Em Ex Ev) in Ep. inversion Ep; subst p.
          cbn [snd] in Fp. apply criterion in Fp; [|exact Hn|exact HA].
          exists a, b, m, x, v. split; [exact Ea|]. split; [exact Eb|]. split; [exact Em|].
          split; [exists im; auto|]. split; [exists wt; auto|exact Fp].
        - intros (a' & b' & m & x & v & E1 & E2 & E3 & (im' & E4 & E4') & (wt' & E5 & E5') & E6).
          rewrite Ea in E1. inversion E1; subst a'. rewrite Eb in E2. inversion E2; subst b'.
          rewrite Eim in E4. inversion E4; subst im'. rewrite Ewt in E5. inversion E5; subst wt'.
          eexists. split; [apply (O4 r c m x v); assumption|]. cbn [snd]. apply criterion; assumption. }
      exists st', n', (map (fun p => (i, fst p, snd p)) L1 ++ L).
      cbn [reject_loop]. rewrite O5. split; [exact R1|]. split; [unfold st1 in R2; rewrite upd_length in R2; exact R2|].
      split; [|split; [|split; [|split]]].
      + intros c Hc. rewrite R3.
        * apply HO. intros ->. apply Hc. exists i. split; [left; reflexivity|exact Eb].
        * intros (j & Hj & Ej). apply Hc. exists j. split; [right; exact Hj|exact Ej].
      + intros j [<-|Hj].
        * intros a' b' im' wt' E1 E2 E3 E4. rewrite Ea in E1. inversion E1; subst a'. rewrite Eb in E2. inversion E2; subst b'.
          rewrite Eim in E3. inversion E3; subst im'. rewrite Ewt in E4. inversion E4; subst wt'.
          exists (imap sel out). split.
          -- rewrite R3; [exact Hb1|]. intros (j & Hj & Ej). exact (HWJ j b Hj Ej eq_refl).
          -- split; [apply imap_ok; exact O1|]. split; [cbn; lia|]. split; [cbn; lia|]. intros r c v v' Ev Ev' m x Em Ex.
             rewrite px_imap, (O4 r c m x v Em Ex Ev) in Ev'. cbn in Ev'. unfold sel in Ev'. cbn [fst snd] in Ev'. inversion Ev'; subst v'.
             pose proof (criterion nsigma A m x v Hn HA) as C. destruct (is_outlier nsigma A m x (Rmax 0 v)).
             ++ split; [reflexivity|]. intros Q. exfalso. apply Q. apply C. reflexivity.
             ++ split; [|reflexivity]. intros Q. apply C in Q. discriminate.
        * intros a' b' im' wt' E1 E2 E3 E4. apply (R4 j Hj a' b' im' wt' E1 E2).
          -- rewrite HIM by (eapply nth_error_In; exact E1). exact E3.
          -- rewrite HO by (exact (HWJ j b' Hj E2)). exact E4.
      + apply NoDup_app_intro; [|exact R5|].
        * apply FinFun.Injective_map_NoDup; [|exact N1]. intros [r c] [r' c'] E. inversion E. reflexivity.
        * intros [[j r] c] Q1 Q2. apply in_map_iff in Q1. destruct Q1 as ([r' c'] & E & _). inversion E; subst.
          apply R6 in Q2. destruct Q2 as (Q2 & _). contradiction.
      + intros j r c. rewrite in_app_iff, R6, in_map_iff. split.
        * intros [([r' c'] & E & Q)|(Q1 & Q2)].
          -- cbn [fst snd] in E. inversion E; subst. split; [left; reflexivity|]. apply HRI. exact Q.
          -- split; [right; exact Q1|]. apply HRJ; assumption.
        * intros ([<-|Hj] & Q).
          -- left. exists (r, c). split; [reflexivity|]. apply HRI. exact Q.
          -- right. split; [exact Hj|]. apply HRJ; assumption.
      + rewrite R7. unfold zlen in *. rewrite app_length, map_length. lia.
  Qed.
End Loop.

Lemma reject_few imlist wtlist nsigma A st : zlen imlist < 3 -> reject_outliers imlist wtlist nsigma A st = (st, Ok 0).
Proof. intros H. unfold reject_outliers. replace (zlen imlist <? 3) with true by lia. reflexivity. Qed.

Lemma reject_ok imlist wtlist nsigma A st h w : (0 <= nsigma)%R -> (0 <= A)%R -> 3 <= zlen imlist ->
  length wtlist = length imlist -> NoDup wtlist -> (forall a, In a imlist -> ~ In a wtlist) ->
  (forall a, In a imlist -> array_at st h w a) -> (forall b, In b wtlist -> array_at st h w b) ->
  exists st' n med L, reject_outliers imlist wtlist nsigma A st = (st', Ok n) /\
    length st' = length st /\ (forall a, ~ In a wtlist -> nth_error st' a = nth_error st a) /\
    img_ok med /\ nr med = h /\ nc med = w /\
    (forall r c m, px med r c = Some m ->
       exists vals, Forall2 (fun a x => at_px st a r c x) imlist vals /\ median_of vals m) /\
    (forall i a b im wt, nth_error imlist i = Some a -> nth_error wtlist i = Some b ->
       nth_error st a = Some im -> nth_error st b = Some wt ->
       exists wt', nth_error st' b = Some wt' /\
         pixelwise (fun r c v v' => forall m x, px med r c = Some m -> px im r c = Some x ->
           (outlier nsigma A m x v -> v' = 0%R) /\ (~ outlier nsigma A m x v -> v' = Rmax 0 v)) wt wt') /\
    NoDup L /\ n = zlen L /\
    (forall i r c, In (i, r, c) L <-> exists a b m x v, nth_error imlist i = Some a /\ nth_error wtlist i = Some b /\
       px med r c = Some m /\ at_px st a r c x /\ at_px st b r c v /\ outlier nsigma A m x v).
Proof.
  intros Hn HA H3 LE ND HD Him Hwt. assert (Hne : imlist <> []) by (intros ->; unfold zlen in H3; cbn in H3; lia).
  destruct (stack_median_exists st imlist h w Hne Him) as (med & Emed & M1 & M2 & M3 & M4).
  destruct (loop_ok med nsigma A imlist wtlist h w M1 M2 M3 HD ND LE Hn HA (seq 0 (length imlist)) st 0) as (st' & n' & L & R1 & R2 & R3 & R4 & R5 & R6 & R7).
  - apply seq_NoDup.
  - intros i Hi. apply in_seq in Hi. lia.
  - exact Him.
  - exact Hwt.
  - exists st', n', med, L. split.
    { unfold reject_outliers. replace (zlen imlist <? 3) with false by lia. rewrite Emed. exact R1. }
    split; [exact R2|]. split; [intros a Ha; apply R3; intros (i & _ & E); apply Ha; eapply nth_error_In; exact E|].
    split; [exact M1|]. split; [exact M2|]. split; [exact M3|]. split; [exact M4|]. split.
    { intros i a b im wt E1 E2 E3 E4. apply (R4 i) with (a := a); try assumption. apply in_seq.
      assert (i < length imlist)%nat by (apply nth_error_Some; congruence). lia. }
    split; [exact R5|]. split; [lia|]. intros i r c. rewrite R6. split; [intros (_ & Q); exact Q|].
    intros Q. split; [|exact Q]. destruct Q as (a & b & m & x & v & E1 & _). apply in_seq.
    assert (i < length imlist)%nat by (apply nth_error_Some; congruence). lia.
Qed.
