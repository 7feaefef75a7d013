(** Lemmas on meds-compare. *)
From Coq Require Import Lia String.
From Verif Require Import Base Img Types Reader SpecFile Extract BoundsM Composite Compare SpecCompare Scripts SpecScripts BaseLemmas.
From Verif Require CompareLemmas CompareLemmas2 CompareLemmas3 CoaddLemmas8.
Open Scope Z_scope.

(** A run that ends well looked at every type. *)
Lemma go_inv k mi sub f1 f2 nrand reps : go k mi sub f1 f2 nrand = Ok reps ->
  let pairs := mi (map o_id (m_cat f1)) (map o_id (m_cat f2)) in
  let ids t := match nrand with Some n => sub t (zlen pairs) (Z.min n (zlen pairs)) | None => zrange (zlen pairs) end in
  pairs <> [] /\ same_columns f1 f2 /\
  forall t, In t [TImage; TWeight; TBmask; TSeg] -> exists r, compare_images k f1 f2 pairs (ids t) t = Ok r.
Proof.
  intros H. cbv zeta. unfold go in H. set (pairs := mi _ _) in *.
  destruct (zlen pairs =? 0) eqn:Z0; [discriminate|]. apply bind_ok in H. destruct H as (u & H1 & H).
  apply bind_ok in H. destruct H as (l & H2 & _).
  split; [intros E; rewrite E in Z0; discriminate|]. split.
  - unfold compare_object_data in H1. destruct (_ && _)%bool eqn:E; [|discriminate]. apply andb_true_iff in E. destruct E as [E1 E2].
    split; [now apply Bool.eqb_prop|]. destruct (m_psf_cols f1), (m_psf_cols f2); try discriminate; reflexivity.
  - intros t Ht. apply mapM_ok_Forall2 in H2. revert Ht. clear -H2. induction H2 as [|x y xs ys H H2 IH]; intros Ht; [destruct Ht|].
    destruct Ht as [<-|Ht]; [eauto|auto].
Qed.

Section Main.
Context {M : Type}.
Variable resolve : string -> Z.
Variable clip : list Q -> res unit.
Variable mi : list Z -> list Z -> list (Z * Z).
Variable sub : ctype -> Z -> Z -> list Z.
Hypothesis Hclip : forall l, clip l = Ok tt.
Hypothesis Hmi : matcher mi.
Hypothesis Hsub : valid_subset sub.

Lemma status_0 {A} (x : res A) : status x = 0 <-> exists a, x = Ok a.
Proof. destruct x; cbn; split; intros H; eauto; [discriminate|destruct H; discriminate]. Qed.

Lemma compare_status args (d : disk M) f1 f2 m1 m2 : d (resolve (a_file1 args)) = Present f1 m1 -> d (resolve (a_file2 args)) = Present f2 m2 ->
  file_wf f1 -> file_wf f2 -> has_types f1 [TImage; TWeight; TBmask; TSeg] -> has_types f2 [TImage; TWeight; TBmask; TSeg] ->
  (0 <= a_rms_tol args)%Q -> a_png args = false ->
  let pairs := mi (map o_id (m_cat f1)) (map o_id (m_cat f2)) in
  compare_main resolve clip mi sub args d = 0 <->
  pairs <> [] /\ same_columns f1 f2 /\
  forall t index p, In t [TImage; TWeight; TBmask; TSeg] -> looked_at pairs (looked (a_nrand args) sub t (zlen pairs)) index p ->
    ~ count_clash (negb (a_no_nepoch args)) f1 f2 p /\ ~ shape_differs f1 f2 t p /\
    (In t [TBmask; TSeg] -> ~ pixel_differs f1 f2 t p).
Proof.
  intros D1 D2 W1 W2 T1 T2 TL PN pairs. unfold compare_main. rewrite D1, D2, PN, status_0. set (k := mkComp _ _ _ _ _).
  pose proof (CompareLemmas3.matcher_pairs mi f1 f2 Hmi) as PO. fold pairs in PO.
  assert (HI : forall t, Forall (fun i => 0 <= i < zlen pairs) (looked (a_nrand args) sub t (zlen pairs))).
  { intros t. unfold looked. destruct (a_nrand args); [apply Hsub|]. apply Forall_forall. intros i Hi. apply In_zrange in Hi. exact Hi. }
  assert (S1 : forall t, In t [TImage; TWeight; TBmask; TSeg] -> has_types f1 [t]) by (intros t Ht u [<-|[]]; now apply T1).
  assert (S2 : forall t, In t [TImage; TWeight; TBmask; TSeg] -> has_types f2 [t]) by (intros t Ht u [<-|[]]; now apply T2).
  assert (RM : forall ids, Forall (fun i => 0 <= i < zlen pairs) ids ->
    ((exists r, compare_images k f1 f2 pairs ids TImage = Ok r) <->
     forall index p, looked_at pairs ids index p -> ~ count_clash (negb (a_no_nepoch args)) f1 f2 p /\ ~ shape_differs f1 f2 TImage p)).
  { intros ids HH. destruct (CompareLemmas2.compare_rms_reports k f1 f2 pairs ids W1 W2 (S1 TImage ltac:(cbn; auto)) (S2 TImage ltac:(cbn; auto)) PO HH eq_refl Hclip TL) as [E R].
    split.
    - intros [r Hr] index p L. split; intros B; assert (F : compare_images k f1 f2 pairs ids TImage = Err ValueError) by (apply E; exists index, p; auto); congruence.
    - intros H. destruct R as (reps & Er & _); [|eauto]. intros F. apply E in F. destruct F as (index & p & L & B).
      destruct (H index p L). tauto. }
  assert (RW : forall ids, Forall (fun i => 0 <= i < zlen pairs) ids ->
    ((exists r, compare_images k f1 f2 pairs ids TWeight = Ok r) <->
     forall index p, looked_at pairs ids index p -> ~ count_clash (negb (a_no_nepoch args)) f1 f2 p /\ ~ shape_differs f1 f2 TWeight p)).
  { intros ids HH. destruct (CompareLemmas2.compare_weight_reports k f1 f2 pairs ids W1 W2 (S1 TWeight ltac:(cbn; auto)) (S2 TWeight ltac:(cbn; auto)) PO HH) as [E R].
    split.
    - intros [r Hr] index p L. split; intros B; assert (F : compare_images k f1 f2 pairs ids TWeight = Err ValueError) by (apply E; exists index, p; auto); congruence.
    - intros H. destruct R as (reps & Er & _); [|eauto]. intros F. apply E in F. destruct F as (index & p & L & B).
      destruct (H index p L). tauto. }
  assert (RX : forall t ids, In t [TBmask; TSeg] -> Forall (fun i => 0 <= i < zlen pairs) ids ->
    ((exists r, compare_images k f1 f2 pairs ids t = Ok r) <->
     forall index p, looked_at pairs ids index p ->
       ~ count_clash (negb (a_no_nepoch args)) f1 f2 p /\ ~ shape_differs f1 f2 t p /\ ~ pixel_differs f1 f2 t p)).
  { intros t ids Ht HH. assert (Ht' : In t [TImage; TWeight; TBmask; TSeg]) by (cbn in *; tauto).
    destruct (CompareLemmas.compare_exact_iff k f1 f2 pairs ids t W1 W2 (S1 t Ht' t (or_introl eq_refl)) (S2 t Ht' t (or_introl eq_refl))) as [C E];
      [intros ->; cbn in Ht; intuition discriminate|intros ->; cbn in Ht; intuition discriminate|exact PO|exact HH|].
    split.
    - intros [r Hr] index p L. split; [|split]; intros B; assert (F : compare_images k f1 f2 pairs ids t = Err ValueError) by (apply E; exists index, p; auto); congruence.
    - intros H. destruct C as [C|C]; [eauto|]. apply E in C. destruct C as (index & p & L & B). destruct (H index p L) as (B1 & B2 & B3). tauto. }
  split.
  - intros [reps H]. apply go_inv in H. cbv zeta in H. fold pairs in H. destruct H as (NE & SC & H). split; [exact NE|]. split; [exact SC|].
    intros t index p Ht L. specialize (H t Ht). change (match a_nrand args with Some _ => _ | None => _ end) with (looked (a_nrand args) sub t (zlen pairs)) in H.
    cbn in Ht. destruct Ht as [<-|[<-|[<-|[<-|[]]]]].
    + destruct (proj1 (RM _ (HI TImage)) H index p L). split; [assumption|]. split; [assumption|]. intros B; cbn in B; intuition discriminate.
    + destruct (proj1 (RW _ (HI TWeight)) H index p L). split; [assumption|]. split; [assumption|]. intros B; cbn in B; intuition discriminate.
    + destruct (proj1 (RX TBmask _ ltac:(cbn; auto) (HI TBmask)) H index p L) as (? & ? & ?). auto.
    + destruct (proj1 (RX TSeg _ ltac:(cbn; auto) (HI TSeg)) H index p L) as (? & ? & ?). auto.
  - intros (NE & [C1 C2] & H). unfold go. fold pairs.
    replace (zlen pairs =? 0) with false by (destruct pairs; [congruence|rewrite zlen_cons; pose proof (zlen_nonneg pairs); lia]).
    unfold compare_object_data. rewrite C1, C2, Bool.eqb_reflx. replace (psf_cols_eqb (m_psf_cols f2) (m_psf_cols f2)) with true by (destruct (m_psf_cols f2); reflexivity).
    cbn [andb bind].
    match goal with |- exists reps, (let* x := mapM ?g ?l in _) = _ => destruct (CoaddLemmas8.mapM_total g l) as [ys E] end; [|rewrite E; cbn [bind]; eexists; reflexivity].
    intros t Ht. change (match a_nrand args with Some _ => _ | None => _ end) with (looked (a_nrand args) sub t (zlen pairs)).
    cbn in Ht. destruct Ht as [<-|[<-|[<-|[<-|[]]]]].
    + apply (RM _ (HI TImage)). intros index p L. destruct (H TImage index p ltac:(cbn; auto) L) as (? & ? & _). auto.
    + apply (RW _ (HI TWeight)). intros index p L. destruct (H TWeight index p ltac:(cbn; auto) L) as (? & ? & _). auto.
    + apply (RX TBmask _ ltac:(cbn; auto) (HI TBmask)). intros index p L. destruct (H TBmask index p ltac:(cbn; auto) L) as (? & ? & ?). cbn in *. auto 10.
    + apply (RX TSeg _ ltac:(cbn; auto) (HI TSeg)). intros index p L. destruct (H TSeg index p ltac:(cbn; auto) L) as (? & ? & ?). cbn in *. auto 10.
Qed.

Lemma compare_not_there args (d : disk M) : 
  (forall f m, d (resolve (a_file1 args)) <> Present f m) \/ (forall f m, d (resolve (a_file2 args)) <> Present f m) ->
  compare_main resolve clip mi sub args d = 1.
Proof.
  intros H. unfold compare_main. destruct (d (resolve (a_file1 args))) eqn:E1; try reflexivity.
  destruct (d (resolve (a_file2 args))) eqn:E2; try reflexivity. destruct H as [H|H]; exfalso; eapply H; reflexivity.
Qed.
End Main.
