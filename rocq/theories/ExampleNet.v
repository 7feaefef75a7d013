(** Inputs for the examples of PropNet. *)
From Coq Require Import String Lia ZifyBool.
From Verif Require Import Base Img Types Reader MakerLayout MakerWrite MakerFile SpecFile SpecNet ExampleData.
From Verif Require BaseLemmas ImgLemmas.
Open Scope Z_scope.

(** The images of ExampleData, which have no background file, with a sloping background
    added and the file of the background. *)
Definition ex_sky_src (n m base : Z) (seg : path Z) : source :=
  mkSource true (PFile (tab2 n m (fun r c => inject_Z (base + 5 + 40 * r + 2 * c)))) (PFile (ex_qimg n m 5))
    (PFile (ex_qimg n m (base + 1))) seg (PFile (ex_zimg n m 0)) (PFile (ex_zimg n m 3)) (PFile (ex_qimg n m 7)) 2.
Definition ex_sky_rows : list imrow :=
  [ mkImrow (mkImage (ex_wcs 9 10 0 0) 1) (ex_sky_src 9 10 1000 (PFile (ex_zimg 9 10 0))) 70 7;
    mkImrow (mkImage (ex_wcs 6 7 (-2) (-1)) 1) (ex_sky_src 6 7 2000 (PFile (ex_zimg 6 7 5))) 71 8;
    mkImrow (mkImage (ex_wcs 5 5 (-3) (-4)) 1) (ex_sky_src 5 5 3000 PBlank) 72 9 ].

Lemma ex_some (x y : Q) : Some x = Some y -> x = y.
Proof. intros H. injection H as H. exact H. Qed.
Lemma ex_same_net n m b seg : same_net (ex_sky_src n m b seg) (ex_src n m b seg).
Proof.
  unfold same_net. repeat (split; [reflexivity|]). do 2 eexists. repeat (split; [reflexivity|]).
  intros r c x1 x2 b1 b2. unfold bkg_at, ex_sky_src, ex_src. cbn [src_bkg src_image]. unfold ex_qimg. rewrite !ImgLemmas.px_tab2.
  destruct ((0 <=? r) && (r <? n) && (0 <=? c) && (c <? m)); [|discriminate].
  intros H1 H2 H3 ->. rewrite <- (ex_some _ _ H1), <- (ex_some _ _ H2), <- (ex_some _ _ H3). clear.
  change 0%Q with (inject_Z 0). unfold Qminus. rewrite <- !inject_Z_opp, <- !inject_Z_plus.
  match goal with |- (inject_Z ?a == inject_Z ?b)%Q => replace a with b by lia end. reflexivity.
Qed.
Lemma ex_nets : nets_agree ex_sky_rows ex_rows.
Proof.
  split; [reflexivity|]. intros g r1 r2 G1 G2.
  assert (g = 0 \/ g = 1 \/ g = 2) as [->|[->| ->]] by (pose proof (BaseLemmas.zget_Some_range _ _ _ G1) as X; cbn in X; lia).
  - apply (f_equal (fun x => match x with Some y => y | None => r1 end)) in G1. cbn in G1. rewrite <- G1.
    apply (f_equal (fun x => match x with Some y => y | None => r2 end)) in G2. cbn in G2. rewrite <- G2. split; [reflexivity|apply ex_same_net].
  - apply (f_equal (fun x => match x with Some y => y | None => r1 end)) in G1. cbn in G1. rewrite <- G1.
    apply (f_equal (fun x => match x with Some y => y | None => r2 end)) in G2. cbn in G2. rewrite <- G2. split; [reflexivity|apply ex_same_net].
  - apply (f_equal (fun x => match x with Some y => y | None => r1 end)) in G1. cbn in G1. rewrite <- G1.
    apply (f_equal (fun x => match x with Some y => y | None => r2 end)) in G2. cbn in G2. rewrite <- G2. split; [reflexivity|apply ex_same_net].
Qed.

Lemma ex_sky_usable : Forall (fun r => source_ok (ir_src r) /\ bkg_usable (ir_src r)) ex_sky_rows.
Proof.
  repeat (apply Forall_cons; [split; [vm_compute; repeat split; try discriminate|vm_compute; eauto]|]). constructor.
Qed.
Lemma ex_usable : Forall (fun r => source_ok (ir_src r) /\ bkg_usable (ir_src r)) ex_rows.
Proof.
  repeat (apply Forall_cons; [split; [vm_compute; repeat split; try discriminate|vm_compute; eauto]|]). constructor.
Qed.
