(** Inputs for the examples of PropOrder. *)
From Coq Require Import String Lia.
From Verif Require Import Base Img Types Reader MakerLayout MakerWrite MakerFile
  SpecFile SpecExtract SpecOrder ExampleData.
From Verif Require BaseLemmas.
Open Scope Z_scope.

(** The two images after the coadd exchanged. *)
Definition ex_move (g : Z) : Z := if g =? 1 then 2 else if g =? 2 then 1 else g.
Definition ex_other_rows : list imrow :=
  match ex_rows with [a; b; c] => [a; c; b] | l => l end.
Definition ex_other_psfs : list psfobj := [ex_psf 2; ex_psf 1; ex_psf 3].

(** The coadd moved to the end. *)
Definition ex_last (g : Z) : Z := if g =? 0 then 2 else g - 1.
Definition ex_last_rows : list imrow :=
  match ex_rows with [a; b; c] => [b; c; a] | l => l end.
(** Objects need not be in the coadd; one is half a pixel outside of it. *)
Definition ex_nocheck : mconf := ex_conf_with (ex_lconf true false false false 1).
Definition ex_edge_objs : list obj := [ex_obj 11 1 3 (11#2) (9#2); ex_obj 12 2 4 (1#2) (5#4)].

Lemma ex_reordered : reordered ex_rows ex_other_rows ex_move.
Proof.
  assert (C : forall g, 0 <= g < zlen ex_rows -> g = 0 \/ g = 1 \/ g = 2) by (intros g; cbn; lia).
  split; [reflexivity|]. split.
  - intros g H. destruct (C g H) as [->|[->| ->]]; (split; [cbn; lia|reflexivity]).
  - intros g h Hg Hh. destruct (C g Hg) as [->|[->| ->]]; destruct (C h Hh) as [->|[->| ->]]; cbn; lia.
Qed.
Lemma ex_last_reordered : reordered ex_rows ex_last_rows ex_last.
Proof.
  assert (C : forall g, 0 <= g < zlen ex_rows -> g = 0 \/ g = 1 \/ g = 2) by (intros g; cbn; lia).
  split; [reflexivity|]. split.
  - intros g H. destruct (C g H) as [->|[->| ->]]; (split; [cbn; lia|reflexivity]).
  - intros g h Hg Hh. destruct (C g Hg) as [->|[->| ->]]; destruct (C h Hh) as [->|[->| ->]]; cbn; lia.
Qed.
Lemma ex_psfs_moved : psfs_moved (zlen ex_rows) ex_move (Some ex_psfs) (Some ex_other_psfs).
Proof. intros g H. assert (g = 0 \/ g = 1 \/ g = 2) as [->|[->| ->]] by (cbn in H; lia); reflexivity. Qed.
