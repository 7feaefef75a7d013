From Coq Require Import String Lia ZifyBool ZifyNat.
From Verif Require Import Base Img Types BoundsM MakerLayout WcsSel SpecWcs BaseLemmas WcsLemmas.
Open Scope Z_scope.

Section Fixed.
Context (W : world) (psf : option (list psfw)) (ht : bool) (rows : list irow) (h : heap) (POK : psf_ok psf rows h).

(** What image [i] leaves in an object it shares. *)
Definition marked (i : Z) (w w' : wobj) : Prop :=
  exists row hdr n, zget rows i = Some row /\ read_header W (i_path row) (i_ext row) = Ok hdr /\ sized hdr n /\
    w' = mkWobj (wo_sky w) n (Some (i_offset row)).

Lemma take_effect g i g' im r w : 0 <= i < zlen rows -> take_wcs W psf ht rows g i = Ok (g', im) ->
  nth_error g r = Some w ->
  exists w', nth_error g' r = Some w' /\ wo_sky w' = wo_sky w /\
    (~ shares psf i r -> w' = w) /\ (shares psf i r -> marked i w w').
Proof.
  intros Hi H Hr. unfold take_wcs in H. apply bind_ok in H as (row & E1 & H). apply bind_ok in H as ([g1 r1] & E2 & H).
  cbn [fst snd] in H. apply bind_ok in H as (g2 & E3 & H). apply bind_ok in H as (w1 & E4 & H). apply bind_ok in H as (im' & E5 & H).
  injection H as <- <-. unfold get_wcs in E2. rewrite E1 in E2. cbn [bind] in E2. apply bind_ok in E2 as (p & Ep & E2).
  pose proof (psf_cases psf rows h POK i p Hi Ep) as PC. apply py_index_ok_nonneg in E1; [|lia].
  assert (Lr : (r < length g)%nat) by (apply nth_error_Some; congruence).
  assert (New : forall x, g1 = g ++ [x] -> r1 = length g -> nth_error g2 r = Some w).
  { intros x -> ->. unfold modify in E3. rewrite nth_error_app2, Nat.sub_diag in E3 by lia. cbn [nth_error] in E3.
    injection E3 as <-. rewrite nth_error_upd. destruct (Nat.eqb_spec (length g) r); [lia|].
    rewrite nth_error_app1 by exact Lr. exact Hr. }
  assert (NS : psf_silent psf i -> ~ shares psf i r).
  { intros [N|(l & Hl & Hz)] (l' & Hl' & Hz'); congruence. }
  destruct p as [|r0|w0].
  - apply bind_ok in E2 as (data & Ed & E2). apply bind_ok in E2 as (sn & Es & E2). injection E2 as <- <-.
    exists w. split; [eapply New; reflexivity|]. split; [reflexivity|]. split; [reflexivity|].
    intros S. destruct (NS PC S).
  - destruct PC as [S0 _]. apply bind_ok in E2 as (hd & Eh & E2). apply bind_ok in E2 as (n & En & E2).
    apply bind_ok in E2 as (g0 & E6 & E2). injection E2 as <- <-. unfold modify in E6.
    destruct (nth_error g r0) as [w0|] eqn:E0; [|discriminate E6]. injection E6 as <-.
    unfold modify in E3. rewrite (nth_upd _ _ _ _ _ E0), Nat.eqb_refl in E3. injection E3 as <-.
    assert (X : nth_error (upd g r0 (set_naxis n w0)) r0 = Some (set_naxis n w0)) by (rewrite (nth_upd _ _ _ _ _ E0), Nat.eqb_refl; reflexivity).
    rewrite (nth_upd _ _ _ _ _ X). rewrite (nth_upd _ _ _ _ _ E0).
    destruct (Nat.eqb_spec r0 r) as [->|N].
    + assert (w0 = w) as -> by congruence. exists (set_offset (i_offset row) (set_naxis n w)). split; [reflexivity|]. split; [reflexivity|].
      split; [intros F; destruct (F S0)|]. intros _. exists row, hd, n. apply header_size_sized in En. auto.
    + exists w. split; [exact Hr|]. split; [reflexivity|]. split; [reflexivity|].
      intros (l & Hl & Hz). destruct S0 as (l' & Hl' & Hz'). congruence.
  - destruct PC as (l & Hl & Hz). apply bind_ok in E2 as (hd & Eh & E2). apply bind_ok in E2 as (n & En & E2). injection E2 as <- <-.
    exists w. split; [eapply New; reflexivity|]. split; [reflexivity|]. split; [reflexivity|].
    intros (l' & Hl' & Hz'). congruence.
Qed.

Lemma marked_sky i w1 w w' : wo_sky w1 = wo_sky w -> marked i w1 w' -> marked i w w'.
Proof. intros E (row & hd & n & A & B & C & D). exists row, hd, n. rewrite <- E. auto. Qed.

Lemma loop_effect c r ids : forall g cat g' cat' w, (forall i, In i ids -> 0 <= i < zlen rows) ->
  foldM (file_with W psf ht rows c) ids (g, cat) = Ok (g', cat') -> nth_error g r = Some w ->
  exists w', nth_error g' r = Some w' /\ wo_sky w' = wo_sky w /\
    ((forall i, In i ids -> ~ shares psf i r) -> w' = w) /\
    (forall a i b, ids = a ++ i :: b -> shares psf i r -> (forall j, In j b -> ~ shares psf j r) -> marked i w w').
Proof.
  induction ids as [|i ids IH]; intros g cat g' cat' w Hi H Hr; cbn [foldM] in H.
  - injection H as <- <-. exists w. split; [exact Hr|]. split; [reflexivity|]. split; [reflexivity|].
    intros a i b E. destruct a; discriminate E.
  - apply bind_ok in H as ([g1 cat1] & H1 & H). unfold file_with in H1. cbn [fst snd] in H1.
    apply bind_ok in H1 as ([g2 im] & E1 & H1). cbn [fst snd] in H1. apply bind_ok in H1 as (cat2 & E2 & H1). injection H1 as <- <-.
    destruct (take_effect g i g2 im r w (Hi i (or_introl eq_refl)) E1 Hr) as (w1 & A1 & A2 & A3 & A4).
    destruct (IH g2 cat2 g' cat' w1 (fun j Hj => Hi j (or_intror Hj)) H A1) as (w' & B1 & B2 & B3 & B4).
    exists w'. split; [exact B1|]. split; [congruence|]. split.
    + intros N. rewrite B3 by (intros j Hj; apply N; right; exact Hj). apply A3, N. left; reflexivity.
    + intros a j b E S N. destruct a as [|x a]; cbn in E; injection E as <- E.
      * subst b. rewrite B3 by exact N. apply A4, S.
      * apply (marked_sky j w1 w w' A2). apply (B4 a j b E S N).
Qed.

Lemma zrange_split n i : 0 <= i < n -> exists a b, zrange n = a ++ i :: b /\ forall j, In j b -> i < j < n.
Proof.
  intros H. unfold zrange.
  exists (map Z.of_nat (seq 0 (Z.to_nat i))), (map Z.of_nat (seq (S (Z.to_nat i)) (Z.to_nat n - S (Z.to_nat i)))).
  split.
  - replace (Z.to_nat n) with (Z.to_nat i + S (Z.to_nat n - S (Z.to_nat i)))%nat at 1 by lia.
    rewrite seq_app, map_app. f_equal. cbn [seq map]. rewrite Nat.add_0_l. f_equal. lia.
  - intros j Hj. apply in_map_iff in Hj as (k & <- & Hk). apply in_seq in Hk. lia.
Qed.

Lemma layout_effect c cat g res r w : layout_with W psf ht rows c h cat = Ok (g, res) -> nth_error h r = Some w ->
  exists w', nth_error g r = Some w' /\ wo_sky w' = wo_sky w /\
    ((forall i, 0 <= i < zlen rows -> ~ shares psf i r) -> w' = w) /\
    (forall i, 0 <= i < zlen rows -> shares psf i r -> (forall j, i < j < zlen rows -> ~ shares psf j r) -> marked i w w').
Proof.
  intros H Hr. unfold layout_with in H. apply bind_ok in H as ([g1 cat1] & E1 & H). apply bind_ok in H as ([g2 cat2] & E2 & H).
  cbn [fst snd] in H. apply bind_ok in H as (cat3 & E3 & H). apply bind_ok in H as (r' & E4 & H). injection H as <- _.
  assert (R : forall i, In i (zrange (zlen rows)) -> 0 <= i < zlen rows) by (intros i Hi; apply In_zrange, Hi).
  assert (T : exists w1, nth_error g1 r = Some w1 /\ wo_sky w1 = wo_sky w /\
    ((forall i, 0 <= i < zlen rows -> ~ shares psf i r) -> w1 = w)).
  { unfold trim_with in E1. destruct (first_image_is_coadd c && trim_to_coadd c).
    - apply bind_ok in E1 as ([g0 im0] & T1 & E1). cbn [fst snd] in E1. apply bind_ok in E1 as (c1 & T2 & E1). injection E1 as <- <-.
      assert (0 < zlen rows).
      { pose proof T1 as T0. unfold take_wcs in T0. apply bind_ok in T0 as (row & T0 & _). apply py_index_ok_nonneg in T0; [|lia].
        apply zget_Some_range in T0. lia. }
      destruct (take_effect h 0 g0 im0 r w ltac:(lia) T1 Hr) as (w1 & A1 & A2 & A3 & _).
      exists w1. split; [exact A1|]. split; [exact A2|]. intros N. apply A3, N. lia.
    - injection E1 as <- <-. exists w. auto. }
  destruct T as (w1 & A1 & A2 & A3).
  destruct (loop_effect c r _ g1 cat1 g2 cat2 w1 R E2 A1) as (w' & B1 & B2 & B3 & B4).
  exists w'. split; [exact B1|]. split; [congruence|]. split.
  - intros N. rewrite B3; [apply A3, N|]. intros i Hi. apply N, R, Hi.
  - intros i Hi S N. apply (marked_sky i w1 w w' A2). destruct (zrange_split (zlen rows) i Hi) as (a & b & E & Hb).
    apply (B4 a i b E S). intros j Hj. apply N, Hb, Hj.
Qed.
End Fixed.
