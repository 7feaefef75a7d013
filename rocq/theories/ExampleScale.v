(** Inputs for the examples of PropScale. *)
From Coq Require Import String Lia ZifyBool.
From Verif Require Import Base Img Types Reader MakerLayout MakerWrite MakerFile SpecFile SpecScale ExampleData.
From Verif Require BaseLemmas.
Open Scope Z_scope.

(** The scales of ExampleData are 2; here 6, 1 and 2. *)
Definition ex_a (g : Z) : Q := if g =? 0 then 3%Q else if g =? 1 then (1#2)%Q else 1%Q.
Definition ex_with_scale (s : source) (x : Q) : source :=
  mkSource (src_bytes s) (src_image s) (src_bkg s) (src_weight s) (src_seg s) (src_bmask s) (src_ormask s) (src_noise s) x.
Definition ex_scale_rows (rows : list imrow) : list imrow :=
  map (fun gr => mkImrow (ir_image (snd gr)) (ex_with_scale (ir_src (snd gr)) (Qred (ex_a (fst gr) * src_scale (ir_src (snd gr)))))
    (ir_path (snd gr)) (ir_id (snd gr))) (combine (zrange 3) rows).
Definition ex_scaled_rows : list imrow := ex_scale_rows ex_rows.
(** Objects with neighbours. *)
Definition ex_scaled_segs : list imrow := ex_scale_rows ex_seg_rows.
Definition ex_seg_objs : list obj := [ex_obj 11 1 4 (11#2) (9#2); ex_obj 12 2 2 4 (13#2)].

Lemma ex_rescaled : rescaled ex_a ex_rows ex_scaled_rows.
Proof.
  split; [reflexivity|]. intros g r1 r2 G1 G2.
  assert (g = 0 \/ g = 1 \/ g = 2) as [->|[->| ->]] by (pose proof (BaseLemmas.zget_Some_range _ _ _ G1) as X; cbn in X; lia);
    injection G1 as <-; injection G2 as <-; (split; [reflexivity|]); (split; [repeat split; reflexivity|]);
    (split; [intros H; vm_compute in H; discriminate H|vm_compute; reflexivity]).
Qed.
Lemma ex_segs_rescaled : rescaled ex_a ex_seg_rows ex_scaled_segs.
Proof.
  split; [reflexivity|]. intros g r1 r2 G1 G2.
  assert (g = 0 \/ g = 1 \/ g = 2) as [->|[->| ->]] by (pose proof (BaseLemmas.zget_Some_range _ _ _ G1) as X; cbn in X; lia);
    injection G1 as <-; injection G2 as <-; (split; [reflexivity|]); (split; [repeat split; reflexivity|]);
    (split; [intros H; vm_compute in H; discriminate H|vm_compute; reflexivity]).
Qed.
