(** Model of [compare_object_data] of meds/compare.py with the columns of the two
    catalogs.  Definitions only.  numpy 1.10 or later; integer columns have at least 32
    bits. *)
From Coq Require Import String Qabs.
From Verif Require Import Base Img Types BoundsM Typed LayoutFl OutlierFl CompareFl.
Open Scope Z_scope.

(** A column: numbers, one or [width] of them per row, or text. *)
Inductive column : Type := Nums (k : kind) (width : option Z) (rows : list (list num)) | Texts.
Definition catalog : Type := list (string * column).

(** [numpy.result_type(y, 1.0)]: double precision? *)
Definition float_of (k : kind) : bool := match k with KI _ _ => true | KF d => d end.

(** numpy.isclose for two numbers, rtol=1e-5, atol=1e-8:
    [|x - y| <= atol + rtol * |y|] for finite y, or [x == y]. *)
Definition fl_finite (x : fl) : bool := match x with Fin _ => true | _ => false end.
Definition isclose (k1 k2 : kind) (x y : num) : bool :=
  let d := float_of k2 in
  let w := float_of k1 || d in
  let a := to_fl w x in
  let b := to_fl d y in
  fl_finite b && negb (fl_ltb (fadd d (fround d (1#100000000)) (fmul d (fround d (1#100000)) (fl_abs b)))
                              (fl_abs (fsub w a b))) && negb (fl_nan (fsub w a b))
  || negb (fl_neqb a b).

(** The selected rows as a matrix; numpy puts a dimension 1 before a single one. *)
Definition matrix (width : option Z) (rows : list (list num)) : list (list num) :=
  match width with None => [concat rows] | Some _ => rows end.
Definition dims (width : option Z) (n : Z) : Z * Z := match width with None => (1, n) | Some w => (n, w) end.
(** Broadcasting to [h] rows of [w]. *)
Definition stretch {A} (from to : Z) (l : list A) : list A := if from =? to then l else concat (repeat l (Z.to_nat to)).
Definition spread (ab : Z * Z) (h w : Z) (m : list (list num)) : list num :=
  concat (map (stretch (snd ab) w) (stretch (fst ab) h m)).
Definition match_dim (a b : Z) : res Z :=
  if a =? b then Ok a else if a =? 1 then Ok b else if b =? 1 then Ok a else Err ValueError.

(** meds/compare.py 57-60: [numpy.allclose(c1[n][ind1], c2[n][ind2])] *)
Definition allclose (pairs : list (Z * Z)) (x y : column) : res bool :=
  match x, y with
  | Nums k1 w1 r1, Nums k2 w2 r2 =>
    let* s1 := mapM (fun p => py_index r1 (fst p)) pairs in
    let* s2 := mapM (fun p => py_index r2 (snd p)) pairs in
    let d1 := dims w1 (zlen pairs) in
    let d2 := dims w2 (zlen pairs) in
    let* h := match_dim (fst d1) (fst d2) in
    let* w := match_dim (snd d1) (snd d2) in
    Ok (forallb (fun p => isclose k1 k2 (fst p) (snd p))
          (combine (spread d1 h w (matrix w1 s1)) (spread d2 h w (matrix w2 s2))))
  | _, _ => Err TypeError
  end.

Inductive creport : Type :=
| Differs (n : string)     (* "field ... does not match" *)
| Message (n : string).    (* the text of a ValueError *)

(** meds/compare.py 55-72; [clip n]: what esutil's sigma_clip does with the differences. *)
Definition compare_column (clip : string -> res unit) (pairs : list (Z * Z)) (n : string) (x y : column) : res (list creport) :=
  match (let* check := allclose pairs x y in
         if check : bool then Ok [] else let* _ := clip n in Ok [Differs n]) with
  | Err ValueError => Ok [Message n]
  | r => r
  end.

(** meds/compare.py 44-72 [compare_object_data]; [pairs]: ind1 and ind2. *)
Fixpoint same_names (a b : list string) : bool :=
  match a, b with
  | [], [] => true
  | x :: a', y :: b' => String.eqb x y && same_names a' b'
  | _, _ => false
  end.
Definition compare_catalogs (clip : string -> res unit) (pairs : list (Z * Z)) (c1 c2 : catalog) : res (list creport) :=
  if same_names (map fst c1) (map fst c2) then
    let* l := mapM (fun xy => compare_column clip pairs (fst (fst xy)) (snd (fst xy)) (snd (snd xy))) (combine c1 c2) in
    Ok (concat l)
  else Err ValueError.
