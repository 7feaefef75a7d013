(** Inputs for the examples of PropLeave. *)
From Coq Require Import String Lia.
From Verif Require Import Base Img Types Reader MakerLayout MakerWrite MakerFile
  SpecFile SpecExtract SpecOrder SpecLeave ExampleData.
From Verif Require BaseLemmas.
Open Scope Z_scope.

(** The image after the coadd left out. *)
Definition ex_skip (g : Z) : Z := 2 * g.
Definition ex_kept_rows : list imrow := match ex_rows with [a; b; c] => [a; c] | l => l end.
Definition ex_kept_psfs : list psfobj := [ex_psf 2; ex_psf 1].

(** The coadd left out. *)
Definition ex_next (g : Z) : Z := g + 1.
Definition ex_nocoadd_rows : list imrow := match ex_rows with [a; b; c] => [b; c] | l => l end.
Definition ex_unchecked : mconf := ex_conf_with (ex_lconf true false false false 1).
(** In the coadd, and half a pixel outside of the image after it. *)
Definition ex_side_objs : list obj := [ex_obj 11 1 3 (3#2) (9#2)].

Lemma ex_left_out : left_out ex_kept_rows ex_rows ex_skip.
Proof.
  assert (C : forall g, 0 <= g < zlen ex_kept_rows -> g = 0 \/ g = 1) by (intros g; cbn; lia).
  split.
  - intros g H. destruct (C g H) as [->| ->]; (split; [cbn; lia|reflexivity]).
  - intros g h _ H _. unfold ex_skip. lia.
Qed.
Lemma ex_nocoadd_left_out : left_out ex_nocoadd_rows ex_rows ex_next.
Proof.
  assert (C : forall g, 0 <= g < zlen ex_nocoadd_rows -> g = 0 \/ g = 1) by (intros g; cbn; lia).
  split.
  - intros g H. destruct (C g H) as [->| ->]; (split; [cbn; lia|reflexivity]).
  - intros g h _ H _. unfold ex_next. lia.
Qed.
Lemma ex_kept_psfs_moved : psfs_moved (zlen ex_kept_rows) ex_skip (Some ex_kept_psfs) (Some ex_psfs).
Proof. intros g H. assert (g = 0 \/ g = 1) as [->| ->] by (cbn in H; lia); reflexivity. Qed.
