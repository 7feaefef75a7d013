(** Specifications for the nearest-object weights of typed arrays, and example arrays. *)
From Verif Require Import Base Img Types SpecFile SpecUberseg Typed SpecTyped.
Open Scope Z_scope.

(** The seg map as numbers. *)
Definition seg_values (a : img num) (seg : img Q) : Prop :=
  img_ok seg /\ nr seg = nr a /\ nc seg = nc a /\ Forall2 value (dat a) (dat seg).
(** Every value is a whole number that a C int can hold, none is negative. *)
Definition c_ints (seg : img Q) : Prop :=
  forall r c v, px seg r c = Some v -> exists z, (v == inject_Z z)%Q /\ 0 <= z < 2 ^ 31.
(** All nearest object pixels of (r, c) have the same value. *)
Definition no_tie (seg : img Q) (r c : Z) : Prop :=
  forall r1 c1 v1 r2 c2 v2, nearest seg r c r1 c1 v1 -> nearest seg r c r2 c2 v2 -> (v1 == v2)%Q.
(** The same number, whatever the type. *)
Definition same_num (x y : num) : Prop :=
  match x, y with
  | NF (Inf s), NF (Inf s') => s = s'
  | NF NaN, NF NaN => True
  | _, _ => exists q, value x q /\ value y q
  end.

(** A number that is also one of type f4. *)
Definition f4_num (x : num) : Prop := match x with NI z => is_float false (inject_Z z) | NF y => fl_ok false y end.

(** Three objects in a row of four pixels, of the numbers 5, [n] and 7, and
    weights of 1. *)
Definition ty_seg (n : Z) : arr := mkArr (KI true 64) (tab2 1 4 (fun _ c => NI (if c =? 0 then 5 else if c =? 1 then n else if c =? 2 then 0 else 7))).
Definition ty_wt : arr := mkArr (KF false) (tab2 1 4 (fun _ _ => NF (Fin 1))).
(** 0.1 in double precision *)
Definition ty_wt8 : arr := mkArr (KF true) (tab2 1 4 (fun _ _ => NF (Fin (3602879701896397 # (2 ^ 55))))).
