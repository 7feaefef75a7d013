(** Specification of the comparison of two catalogs. *)
From Coq Require Import String Qabs.
From Verif Require Import Base Img Types Typed SpecTyped SpecCompareFl CmpCat.
Open Scope Z_scope.

(** Columns of numbers: rows of the width of the column, numbers of the type, floats or
    integers of 32 or 64 bits; integers below 2^53 so that doubles hold them. *)
Definition kind_ok (k : kind) : Prop := match k with KI _ b => 32 <= b <= 64 | KF _ => True end.
Definition small (x : num) : Prop := match x with NI z => - 2 ^ 53 < z < 2 ^ 53 | NF (Fin q) => (Qabs q <= Qpower (2#1) 120)%Q | NF _ => True end.
Definition numeric (c : column) : Prop :=
  match c with
  | Nums k w rows => kind_ok k /\ Forall (fun r => zlen r = match w with Some n => n | None => 1 end /\ Forall (fun x => num_ok k x /\ small x) r) rows
  | Texts => False
  end.
Definition in_rows (c : column) (i : Z) : Prop := match c with Nums _ _ rows => 0 <= i < zlen rows | Texts => True end.

(** Element [j] of row [i]. *)
Definition cell (c : column) (i j : Z) (x : num) : Prop :=
  match c with Nums _ _ rows => exists r, zget rows i = Some r /\ zget r j = Some x | Texts => False end.
Definition width_of (c : column) : option Z := match c with Nums _ w _ => w | Texts => None end.
Definition is_double (c : column) : bool := match c with Nums (KF d) _ _ => d | _ => true end.

(** The number as a rational, if it is one. *)
Definition exactly (x : num) : fl := match x with NI z => Fin (inject_Z z) | NF y => y end.

(** Clearly within the tolerance of allclose, and clearly not; [e]: rounding. *)
Definition tolerance (b : Q) : Q := ((1#100000000) + (1#100000) * Qabs b)%Q.
Definition alike (e : Q) (x y : num) : Prop :=
  match exactly x, exactly y with
  | Fin a, Fin b => (Qabs (a - b) <= tolerance b * (1 - 10 * e))%Q
  | Inf s, Inf s' => s = s'
  | _, _ => False
  end.
Definition apart (e : Q) (x y : num) : Prop :=
  match exactly x, exactly y with
  | Fin a, Fin b => (tolerance b * (1 + 10 * e) < Qabs (a - b))%Q
  | Inf s, Inf s' => s <> s'
  | _, _ => True
  end.
(** Rounding of the coarser type. *)
Definition unit_of (x y : column) : Q := eps (is_double x && is_double y).

(** Rows that are matched exist in both. *)
Definition rows_in (pairs : list (Z * Z)) (x y : column) : Prop := Forall (fun p => in_rows x (fst p) /\ in_rows y (snd p)) pairs.
(** Catalogs of numbers with the same columns. *)
Definition comparable (pairs : list (Z * Z)) (c1 c2 : catalog) : Prop :=
  map fst c1 = map fst c2 /\ NoDup (map fst c1) /\ Forall2 (fun a b => numeric (snd a) /\ numeric (snd b) /\ rows_in pairs (snd a) (snd b)) c1 c2.
Definition report_name (r : creport) : string := match r with Differs n => n | Message n => n end.
