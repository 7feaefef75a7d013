(** Specification for the comparison of cutouts in floating point (C128). *)
From Coq Require Import Qabs Qpower Permutation.
From Verif Require Import Base Img Types Typed CompareFl.
Open Scope Z_scope.

(** Mean and mean square deviation. *)
Definition total (l : list Q) : Q := fold_right Qplus 0%Q l.
Definition average (l : list Q) : Q := (total l / inject_Z (Z.of_nat (length l)))%Q.
Definition mean_square (l : list Q) : Q := average (map (fun x => ((x - average l) * (x - average l))%Q) l).

(** Each of [n] elements is added once, in at most [k] layers of additions. *)
Fixpoint leaves (t : order) : list Z := match t with Leaf i => [i] | Node a b => leaves a ++ leaves b end.
Fixpoint layers (t : order) : Z := match t with Leaf _ => 0 | Node a b => 1 + Z.max (layers a) (layers b) end.
Definition adds_up (n k : Z) (np : numpy) : Prop :=
  Permutation (leaves (np_order np n)) (zrange n) /\ layers (np_order np n) <= k.

(** Half of the last place relative to 1: 2^-24 and 2^-53. *)
Definition eps (d : bool) : Q := Qpower (2#1) (if d then -53 else -24).
(** The square root is one up to two units of rounding; it keeps NaN and infinity. *)
Definition root_ok (d : bool) (sq : fl -> fl) : Prop :=
  sq NaN = NaN /\ sq (Inf false) = Inf false /\
  forall q, (0 <= q)%Q -> exists s, sq (Fin q) = Fin s /\ (0 <= s)%Q /\
    ((s * (1 - 2 * eps d)) * (s * (1 - 2 * eps d)) <= q <= (s * (1 + 2 * eps d)) * (s * (1 + 2 * eps d)))%Q.

(** Two images of one shape whose pixels are the numbers given. *)
Definition pair_of (h w : Z) (im1 im2 : img fl) (l : list (Q * Q)) : Prop :=
  0 < h /\ 0 < w /\ Z.of_nat (length l) = h * w /\
  im1 = mkImg h w (map (fun p => Fin (fst p)) l) /\ im2 = mkImg h w (map (fun p => Fin (snd p)) l).
Definition differences (l : list (Q * Q)) : list Q := map (fun p => (fst p - snd p)%Q) l.

Definition shaped (h w : Z) (im : img fl) : Prop := nr im = h /\ nc im = w /\ Z.of_nat (length (dat im)) = h * w.
Definition number (x : fl) : bool := match x with Fin _ => true | _ => false end.
(** The same number or the same infinity. *)
Definition same_value (x y : fl) : Prop :=
  (exists a b, x = Fin a /\ y = Fin b /\ (a == b)%Q) \/ (exists s, x = Inf s /\ y = Inf s).
(** The differences of at least [c]. *)
Definition far (c : Q) (l : list Q) : list Q := filter (fun x => Qle_bool c (Qabs x)) l.

(** * Data for the examples: addition from left to right, square roots to 80 bits *)
Definition cx_order (n : Z) : order := fold_left (fun t i => Node t (Leaf (i + 1))) (zrange (n - 1)) (Leaf 0).
Definition cx_root (x : fl) : fl :=
  match x with
  | Fin q => if Qle_bool 0 q
             then Fin (inject_Z (Z.sqrt (Qnum q * QDen q * 2 ^ 160)) / inject_Z (QDen q * 2 ^ 80))%Q else NaN
  | Inf true => NaN
  | y => y
  end.
Definition cx_numpy : numpy := mkNumpy cx_order cx_root true false.
Definition cx_image (l : list fl) : img fl := mkImg 2 2 l.
Definition cx_pairs : list (Q * Q) := [(1%Q, 1%Q); (2%Q, 3%Q); (1#2, 1#4); (100%Q, 99%Q)].
