(** Rounding of IEEE 754 single and double precision, to nearest with ties to
    even, for the C code of meds/_uberseg.c and meds/fast3tree.c.  Definitions
    only.  The range of the exponent is not bounded: neither overflow nor
    underflow is modelled, and there are no infinities or NaNs. *)
From Coq Require Import Qround Qpower.
From Verif Require Import Base BoundsM.
Open Scope Z_scope.

(** The integer nearest to [y], the even one of two. *)
Definition half_even (y : Q) : Z :=
  let q := Qfloor y in
  let f := (y - inject_Z q)%Q in
  if qltb f (1#2) then q else if qltb (1#2) f then q + 1 else if Z.even q then q else q + 1.

(** Positive [x] with a significand of [p] bits: [x * 2^k] is between [2^(p-1)] and [2^p]. *)
Definition scale (p : Z) (x : Q) : Z :=
  let k := p - 1 - (Z.log2 (Qnum x) - Z.log2 (Zpos (Qden x))) in
  if qltb (x * Qpower (2#1) k)%Q (inject_Z (2 ^ (p - 1))) then k + 1 else k.
Definition rnd_pos (p : Z) (x : Q) : Q :=
  let k := scale p x in (inject_Z (half_even (x * Qpower (2#1) k)) * Qpower (2#1) (- k))%Q.

Definition rnd (p : Z) (x : Q) : Q :=
  let x := Qred x in
  if qltb 0 x then rnd_pos p x else if qltb x 0 then Qopp (rnd_pos p (Qopp x)) else 0%Q.

(** float and double *)
Definition f32 (x : Q) : Q := rnd 24 x.
Definition f64 (x : Q) : Q := rnd 53 x.

(** The square root of the C library in double precision: the root is computed
    to 2^-64 with a last bit telling whether it is inexact, and rounded. *)
Definition sqrt64 (x : Q) : Q :=
  let x := Qred x in
  let n := Qnum x * Zpos (Qden x) * 4 ^ 64 in
  let r := Z.sqrt n in
  f64 ((if r * r =? n then 2 * r else 2 * r + 1) # (2 * Qden x * 2 ^ 64)).
