(** Model of meds/bounds.py class Bounds, over exact rationals.  Definitions only. *)
From Verif Require Import Base.
Open Scope Q_scope.

Record bounds : Type := mkBounds { rowmin : Q; rowmax : Q; colmin : Q; colmax : Q }.

Definition qleb (a b : Q) : bool := Qle_bool a b.
Definition qltb (a b : Q) : bool := negb (Qle_bool b a).

(** meds/bounds.py 13-25 *)
Definition contains_point (b : bounds) (row col : Q) : bool :=
  qleb row (rowmax b) && qleb (rowmin b) row && qleb col (colmax b) && qleb (colmin b) col.

(** meds/bounds.py 27-39; the arrays are given as the list of (row, col). *)
Definition contains_points (b : bounds) (rc : list (Q * Q)) : list bool :=
  map (fun p => qleb (fst p) (rowmax b) && qleb (rowmin b) (fst p)
                && qleb (snd p) (colmax b) && qleb (colmin b) (snd p)) rc.

(** meds/bounds.py 41-54 *)
Definition contains_bounds (self b : bounds) : bool :=
  qleb (rowmin self) (rowmin b) && qleb (rowmax b) (rowmax self)
  && qleb (colmin self) (colmin b) && qleb (colmax b) (colmax self).

(** meds/bounds.py 56-70 *)
Definition intersects_bounds (self b : bounds) : bool :=
  negb (qleb (rowmax self) (rowmin b)) && negb (qleb (rowmax b) (rowmin self))
  && negb (qleb (colmax self) (colmin b)) && negb (qleb (colmax b) (colmin self)).

(** meds/bounds.py 72-89 *)
Definition expand_point (b : bounds) (row col : Q) : bounds :=
  let rr := if qltb row (rowmin b) then (row, rowmax b)
            else if qltb (rowmax b) row then (rowmin b, row) else (rowmin b, rowmax b) in
  let cc := if qltb col (colmin b) then (col, colmax b)
            else if qltb (colmax b) col then (colmin b, col) else (colmin b, colmax b) in
  mkBounds (fst rr) (snd rr) (fst cc) (snd cc).

(** [a.min()], [a.max()] of a numpy array; empty arrays raise. *)
Fixpoint qmin_from (m : Q) (l : list Q) : Q :=
  match l with [] => m | x :: l' => qmin_from (if qltb x m then x else m) l' end.
Fixpoint qmax_from (m : Q) (l : list Q) : Q :=
  match l with [] => m | x :: l' => qmax_from (if qltb m x then x else m) l' end.
Definition qmin (l : list Q) : res Q := match l with [] => Err ValueError | x :: l' => Ok (qmin_from x l') end.
Definition qmax (l : list Q) : res Q := match l with [] => Err ValueError | x :: l' => Ok (qmax_from x l') end.

(** meds/bounds.py 91-114 *)
Definition expand_points (b : bounds) (rc : list (Q * Q)) : res bounds :=
  let* r0 := qmin (map fst rc) in
  let* r1 := qmax (map fst rc) in
  let* c0 := qmin (map snd rc) in
  let* c1 := qmax (map snd rc) in
  Ok (mkBounds (if qltb r0 (rowmin b) then r0 else rowmin b)
               (if qltb (rowmax b) r1 then r1 else rowmax b)
               (if qltb c0 (colmin b) then c0 else colmin b)
               (if qltb (colmax b) c1 then c1 else colmax b)).

(** meds/bounds.py 116-135 *)
Definition expand_bounds (self b : bounds) : bounds :=
  let rr := if qltb (rowmin b) (rowmin self) then (rowmin b, rowmax self)
            else if qltb (rowmax self) (rowmax b) then (rowmin self, rowmax b)
            else (rowmin self, rowmax self) in
  let cc := if qltb (colmin b) (colmin self) then (colmin b, colmax self)
            else if qltb (colmax self) (colmax b) then (colmin self, colmax b)
            else (colmin self, colmax self) in
  mkBounds (fst rr) (snd rr) (fst cc) (snd cc).
