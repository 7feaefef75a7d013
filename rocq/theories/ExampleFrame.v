(** Inputs for the examples of PropFrame. *)
From Coq Require Import String Lia ZifyBool Lqa.
From Verif Require Import Base Img Types Reader MakerLayout MakerWrite MakerFile
  SpecFile SpecExtract SpecFrame ExampleData.
From Verif Require BaseLemmas ImgLemmas.
Open Scope Z_scope.

(** The images of ExampleData inside larger frames: [g + 1] rows before and 2 columns
    to the left, and one more row and column at the other side. *)
Definition ex_dr (g : Z) : Z := g + 1.
Definition ex_dc (_ : Z) : Z := 2.
Definition ex_big (dr n m base : Z) : img Z := ex_zimg (n + dr + 1) (m + 3) (base - 20 * dr - 2).
Definition ex_bigq (dr n m base : Z) : img Q := ex_qimg (n + dr + 1) (m + 3) (base - 20 * dr - 2).
Definition ex_big_src (dr n m base : Z) (seg : path Z) : source :=
  mkSource true (PFile (ex_bigq dr n m base)) PBlank (PFile (ex_bigq dr n m (base + 1))) seg
    (PFile (ex_big dr n m 0)) (PFile (ex_big dr n m 3)) (PFile (ex_bigq dr n m 7)) 2.
Definition ex_big_wcs (dr n m : Z) (x y : Q) : wcs :=
  ex_wcs (n + dr + 1) (m + 3) (x + inject_Z dr) (y + 2).
Definition ex_big_rows : list imrow :=
  [ mkImrow (mkImage (ex_big_wcs 1 9 10 0 0) 1) (ex_big_src 1 9 10 1000 (PFile (ex_big 1 9 10 0))) 70 7;
    mkImrow (mkImage (ex_big_wcs 2 6 7 (-2) (-1)) 1) (ex_big_src 2 6 7 2000 (PFile (ex_big 2 6 7 5))) 71 8;
    mkImrow (mkImage (ex_big_wcs 3 5 5 (-3) (-4)) 1) (ex_big_src 3 5 5 3000 PBlank) 72 9 ].
(** Half a row above the first row of the coadd, in the buffer around it. *)
Definition ex_above : list obj := [ex_obj 11 1 4 (11#2) (1#2)].

Lemma ex_inside dr n m b : 0 <= dr -> 0 <= n -> 0 <= m -> inside dr 2 (ex_zimg n m b) (ex_big dr n m b).
Proof.
  intros D N M r c x. unfold ex_big, ex_zimg. rewrite !ImgLemmas.px_tab2.
  destruct ((0 <=? r) && (r <? n) && (0 <=? c) && (c <? m)) eqn:E; [|discriminate]. intros H. rewrite <- H.
  destruct ((0 <=? r + dr) && (r + dr <? n + dr + 1) && (0 <=? c + 2) && (c + 2 <? m + 3)) eqn:E2; [|lia].
  apply (f_equal Some). lia.
Qed.
Lemma ex_insideq dr n m b : 0 <= dr -> 0 <= n -> 0 <= m -> inside dr 2 (ex_qimg n m b) (ex_bigq dr n m b).
Proof.
  intros D N M r c x. unfold ex_bigq, ex_qimg. rewrite !ImgLemmas.px_tab2.
  destruct ((0 <=? r) && (r <? n) && (0 <=? c) && (c <? m)) eqn:E; [|discriminate]. intros H. rewrite <- H.
  destruct ((0 <=? r + dr) && (r + dr <? n + dr + 1) && (0 <=? c + 2) && (c + 2 <? m + 3)) eqn:E2; [|lia].
  apply (f_equal Some), (f_equal inject_Z). lia.
Qed.
Lemma ex_big_wcs_inside dr n m x y : 0 <= dr -> wcs_inside dr 2 (ex_wcs n m x y) (ex_big_wcs dr n m x y).
Proof.
  intros D. unfold wcs_inside, ex_big_wcs, ex_wcs. cbn [w_nrow w_ncol w_cut w_pos w_jac fst snd].
  repeat split; try lia; try (intros; assumption); rewrite !Qred_correct; try (unfold inject_Z at 1; lra); lra.
Qed.
Lemma ex_frames : frames ex_dr ex_dc ex_rows ex_big_rows.
Proof.
  split; [reflexivity|]. intros g r1 r2 G1 G2.
  assert (g = 0 \/ g = 1 \/ g = 2) as [->|[->| ->]] by (pose proof (BaseLemmas.zget_Some_range _ _ _ G1) as X; cbn in X; lia);
    injection G1 as <-; injection G2 as <-; (split; [reflexivity|]); (split; [apply ex_big_wcs_inside; cbn; lia|]);
    unfold source_inside; cbn [ir_src ex_src ex_big_src src_image src_bkg src_weight src_seg src_bmask src_ormask src_noise src_scale path_inside ex_dr ex_dc];
    repeat split; first [apply ex_insideq | apply ex_inside]; cbn; lia.
Qed.
