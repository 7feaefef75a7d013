From Coq Require Import Lia ZifyBool ZifyNat.
From Verif Require Import Base BaseLemmas Img ImgLemmas Types MakerWrite SpecTiles.
Ltac Zify.zify_post_hook ::= Z.div_mod_to_equations.

Lemma clipped_boxes dim start bs o0 o1 b0 b1 : 0 <= dim -> 0 <= bs ->
  get_clipped_boxes dim start bs = ((o0, o1), (b0, b1)) ->
  (* offsets agree, and lie in the axis and the box as soon as they are not empty *)
  o0 - b0 = start /\ o1 - b1 = start /\
  (forall i, 0 <= i < bs -> (b0 <= i < b1 <-> 0 <= start + i < dim)) /\
  (0 <= o0 /\ o1 <= dim /\ 0 <= b0 /\ b1 <= bs).
Proof.
  intros Hd Hb. unfold get_clipped_boxes.
  destruct (start <? 0) eqn:E1; destruct (dim - (start + bs) <? 0) eqn:E2; simpl;
  intros H; inversion H; subst; clear H;
  (repeat split; try (intros; lia)).
Qed.

Lemma make_stamp_crop {A} (v : A) bs orow ocol im : 0 <= bs -> img_ok im ->
  make_stamp (Ok v) bs orow ocol im = Ok (crop v im orow ocol bs).
Proof.
  intros Hb Him. pose proof Him as (I1 & I2 & I3). unfold make_stamp.
  destruct (get_clipped_boxes (nr im) orow bs) as [[or0 or1] [r0 r1]] eqn:ER.
  destruct (get_clipped_boxes (nc im) ocol bs) as [[oc0 oc1] [c0 c1]] eqn:EC.
  apply clipped_boxes in ER; [|lia|lia]. apply clipped_boxes in EC; [|lia|lia].
  destruct ER as (R1 & R2 & R3 & R4). destruct EC as (C1 & C2 & C3 & C4).
  destruct (bs <? 0) eqn:EB; [lia|]. cbn [bind].
  unfold full. destruct ((0 <=? bs) && (0 <=? bs)) eqn:EF; [|lia]. cbn [bind].
  match goal with |- (if ?b then _ else _) = _ => destruct b eqn:EOK end.
  - (* something is on the image *)
    unfold sub2d, np_bound.
    destruct (or0 <? 0) eqn:Q1; [lia|]. destruct (or1 <? 0) eqn:Q2; [lia|].
    destruct (oc0 <? 0) eqn:Q3; [lia|]. destruct (oc1 <? 0) eqn:Q4; [lia|].
    rewrite !Z.min_l by lia. rewrite !Z.max_r by lia.
    destruct (tab2M_exists (or1 - or0) (oc1 - oc0) (fun i j => px_res im (or0 + i) (oc0 + j)))
      as (rd & Erd); [lia|lia| |].
    { intros r c Hr Hc. destruct (px_in im (or0 + r) (oc0 + c) Him) as (a & Ha); [lia|lia|].
      exists a. unfold px_res. rewrite Ha. reflexivity. }
    rewrite Erd. cbn [bind].
    apply tab2M_ok in Erd; [|lia|lia]. destruct Erd as (D1 & D2 & D3 & D4).
    unfold paste, np_bound. cbn [nr nc tab2].
    destruct (r0 <? 0) eqn:Q5; [lia|]. destruct (r1 <? 0) eqn:Q6; [lia|].
    destruct (c0 <? 0) eqn:Q7; [lia|]. destruct (c1 <? 0) eqn:Q8; [lia|].
    rewrite !Z.min_l by lia. rewrite !Z.max_r by lia.
    match goal with |- (if ?b then _ else _) = _ => destruct b eqn:ESH end; [|lia].
    unfold crop. apply tab2M_tab2; [lia|lia|]. intros r c Hr Hc.
    specialize (R3 r Hr). specialize (C3 c Hc).
    match goal with |- (if ?b then _ else _) = _ => destruct b eqn:EIN end.
    + destruct (D4 (r - r0) (c - c0)) as (a & Ha & Hp); [lia|lia|].
      unfold px_res in *. rewrite Hp.
      replace (or0 + (r - r0)) with (orow + r) in Ha by lia.
      replace (oc0 + (c - c0)) with (ocol + c) in Ha by lia.
      destruct (px im (orow + r) (ocol + c)); [congruence|discriminate].
    + unfold px_res. rewrite px_tab2.
      dif E2; [|lia].
      rewrite px_off; [reflexivity|]. lia.
  - (* wholly off the image *)
    f_equal. unfold crop. apply img_ext; try (apply tab2_ok; lia); try reflexivity.
    intros r c Hr Hc. rewrite !px_tab2. cbn [tab2 nr nc] in Hr, Hc.
    dif E; [|reflexivity]. f_equal.
    rewrite px_off; [reflexivity|]. specialize (R3 r Hr). specialize (C3 c Hc). lia.
Qed.

Lemma crop_ok {A} (v : A) im orow ocol bs : 0 <= bs -> img_ok (crop v im orow ocol bs).
Proof. intros H. apply tab2_ok; lia. Qed.

Lemma crop_len {A} (v : A) im orow ocol bs : 0 <= bs -> zlen (dat (crop v im orow ocol bs)) = bs * bs.
Proof. intros H. destruct (crop_ok v im orow ocol bs H) as (_ & _ & L). exact L. Qed.
