(** Images left out (meds/maker.py 636-758, the loop over the files). *)
From Verif Require Import Base Img Types MakerLayout MakerFile.
Open Scope Z_scope.

(** The first list is the second with some of the rows left out, in the same order;
    row [g] of the first is row [move g] of the second. *)
Definition left_out (rows1 rows2 : list imrow) (move : Z -> Z) : Prop :=
  (forall g, 0 <= g < zlen rows1 -> 0 <= move g < zlen rows2 /\ zget rows2 (move g) = zget rows1 g) /\
  (forall g g', 0 <= g -> g < g' -> g' < zlen rows1 -> move g < move g').

(** Cutout [c] of the object is from one of the images that are not left out. *)
Definition from_kept (n1 : Z) (move : Z -> Z) (o2 : obj) (c : Z) : Prop :=
  0 <= c < o_ncut o2 /\ exists s g, zget (o_slots o2) c = Some s /\ 0 <= g < n1 /\ s_file s = move g.
