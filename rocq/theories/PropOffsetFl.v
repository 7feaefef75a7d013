(** C129: conversion between the two kinds of positions in floating point. *)
From Coq Require Import Qabs Qpower Lia.
From Verif Require Import Base Img Types Typed SpecTyped OffsetFl SpecOffsetFl OffsetFlLemmas OffsetFlLemmas3.
Open Scope Z_scope.

(** Converting zero based positions and converting back gives the positions: refuted. *)
Theorem C129_zero_based_refuted : exists z o, is_float true z /\ (1 # 16 <= z <= 1)%Q /\ o = 1%Q /\
  exists l l', positions_fl true [Fin z] [Fin z] (Fin o) true = Ok l /\ positions_fl true (map fw_row l) (map fw_col l) (Fin o) false = Ok l' /\ ~ Forall2 same_pos l l'.
Proof. exact zero_based_lost. Qed.
Print Assumptions C129_zero_based_refuted.

(** The same starting from wcs positions, close to the origin: refuted. *)
Theorem C129_wcs_refuted : exists x o, is_float true x /\ (0 < x <= 1 # 2)%Q /\ o = 1%Q /\
  exists l l', positions_fl true [Fin x] [Fin x] (Fin o) false = Ok l /\ positions_fl true (map fz_row l) (map fz_col l) (Fin o) true = Ok l' /\ ~ Forall2 same_pos l l'.
Proof. exact wcs_lost. Qed.
Print Assumptions C129_wcs_refuted.

(** Positions from half a pixel on and the usual offsets: nothing is lost. *)
Theorem C129_usual_partial o row col : (o == 0 \/ o == 1)%Q -> zlen col = zlen row -> Forall usual_position row -> Forall usual_position col ->
  exists l l', positions_fl true row col (Fin o) false = Ok l /\ positions_fl true (map fz_row l) (map fz_col l) (Fin o) true = Ok l' /\ Forall2 same_pos l l'.
Proof. exact (usual_round o row col). Qed.
Print Assumptions C129_usual_partial.

(** Multiples of 2^-20: nothing is lost in either direction, for any such offset. *)
Theorem C129_coarse inv o row col : coarse_position o -> zlen col = zlen row -> Forall coarse_position row -> Forall coarse_position col ->
  exists l l', positions_fl true row col o inv = Ok l /\
    (if inv then positions_fl true (map fw_row l) (map fw_col l) o false else positions_fl true (map fz_row l) (map fz_col l) o true) = Ok l' /\ Forall2 same_pos l l'.
Proof. exact (coarse_round inv o row col). Qed.
Print Assumptions C129_coarse.

(** All positions: what is lost is a few units of rounding of the largest number. *)
Theorem C129_near d inv B o row col : (0 <= B <= Qpower (2#1) 90)%Q -> position_upto B o -> zlen col = zlen row ->
  Forall (position_upto B) row -> Forall (position_upto B) col ->
  exists l l', positions_fl d row col o inv = Ok l /\
    (if inv then positions_fl true (map fw_row l) (map fw_col l) o false else positions_fl true (map fz_row l) (map fz_col l) o true) = Ok l' /\
    Forall2 (within_pos (8 * Qpower (2#1) (if d then -53 else -24) * B + Qpower (2#1) (-130))) l l'.
Proof. exact (near_round d inv B o row col). Qed.
Print Assumptions C129_near.

(** The wcs position is the zero based one plus the offset. *)
Theorem C129_offset d inv B o row col : (0 <= B <= Qpower (2#1) 90)%Q -> position_upto B (Fin o) -> zlen col = zlen row ->
  Forall (position_upto B) row -> Forall (position_upto B) col ->
  exists l, positions_fl d row col (Fin o) inv = Ok l /\
    Forall (fun p => apart (4 * Qpower (2#1) (if d then -53 else -24) * B + Qpower (2#1) (-130)) o (fw_row p) (fz_row p) /\
                     apart (4 * Qpower (2#1) (if d then -53 else -24) * B + Qpower (2#1) (-130)) o (fw_col p) (fz_col p)) l.
Proof. exact (differ_by d inv B o row col). Qed.
Print Assumptions C129_offset.

(** The positions given are stored as they are; one column serves for all rows. *)
Theorem C129_stored d row col o inv : zlen col = zlen row \/ zlen col = 1 -> exists l col', positions_fl d row col o inv = Ok l /\ zlen l = zlen row /\
  zlen col' = zlen row /\ (zlen col = zlen row -> col' = col) /\ (forall x, col = [x] -> forall y, In y col' -> y = x) /\
  (if inv then map fz_row l = row /\ map fz_col l = col' else map fw_row l = row /\ map fw_col l = col').
Proof. exact (stored d row col o inv). Qed.
Print Assumptions C129_stored.

Theorem C129_one_column d row x o inv : positions_fl d row [x] o inv = positions_fl d row (repeat x (length row)) o inv.
Proof. exact (broadcast d row x o inv). Qed.
Print Assumptions C129_one_column.

Theorem C129_shapes d row col o inv : zlen col <> zlen row -> zlen col <> 1 -> positions_fl d row col o inv = Err ValueError.
Proof. exact (other_shapes d row col o inv). Qed.
Print Assumptions C129_shapes.

(** A position that is not a number stays so, and no other becomes one. *)
Theorem C129_nan d inv o row col l p : zlen col = zlen row -> positions_fl d row col (Fin o) inv = Ok l -> (Qabs o <= 1073741824)%Q -> In p l ->
  (fw_row p = NaN <-> fz_row p = NaN) /\ (fw_col p = NaN <-> fz_col p = NaN).
Proof. exact (not_finite d inv o row col l p). Qed.
Print Assumptions C129_nan.

Example C129_usual_example : Forall usual_position [Fin (3#2); Fin 4000] /\
  exists l, positions_fl true [Fin (3#2); Fin 4000] [Fin 7; Fin 8] (Fin 1) false = Ok l /\
    Forall2 same_pos l [mkFpos (Fin (3#2)) (Fin 7) (Fin (1#2)) (Fin 6); mkFpos (Fin 4000) (Fin 8) (Fin 3999) (Fin 7)].
Proof.
  split; [|eexists; split; [vm_compute; reflexivity|repeat constructor; vm_compute; reflexivity]].
  repeat constructor; eexists; (split; [reflexivity|]).
  - split; [exists 3, (-1); vm_compute; repeat split; discriminate|vm_compute; split; discriminate].
  - split; [exists 4000, 0; vm_compute; repeat split; discriminate|vm_compute; split; discriminate].
Qed.
Example C129_coarse_example : Forall coarse_position [Fin (3#2); Fin (-7)] /\ coarse_position (Fin (1#2)).
Proof.
  repeat constructor; eexists.
  - exists (3 * 2 ^ 19). split; [reflexivity|]. split; [reflexivity|vm_compute; discriminate].
  - exists (-7 * 2 ^ 20). split; [reflexivity|]. split; [reflexivity|vm_compute; discriminate].
  - exists (2 ^ 19). split; [reflexivity|]. split; [reflexivity|vm_compute; discriminate].
Qed.
Example C129_near_example : Forall (position_upto 100) [Fin (3#2); Fin (-7)] /\ position_upto 100 (Fin 1).
Proof.
  repeat constructor; eexists; (split; [reflexivity|]).
  - split; [exists 3, (-1); vm_compute; repeat split; discriminate|vm_compute; discriminate].
  - split; [exists (-7), 0; vm_compute; repeat split; discriminate|vm_compute; discriminate].
  - split; [exists 1, 0; vm_compute; repeat split; discriminate|vm_compute; discriminate].
Qed.
Example C129_column_example : (exists l, positions_fl false [Fin 1; NaN] [Fin 2] (Fin 1) true = Ok l /\
    Forall2 same_pos l [mkFpos (Fin 2) (Fin 3) (Fin 1) (Fin 2); mkFpos NaN (Fin 3) NaN (Fin 2)]) /\
  positions_fl true [Fin 1] [Fin 2; Fin 3] (Fin 1) true = Err ValueError.
Proof. split; [|reflexivity]. eexists. split; [vm_compute; reflexivity|repeat constructor; vm_compute; reflexivity]. Qed.
