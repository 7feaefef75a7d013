(** Shared vocabulary of the models: exceptions as values, monadic loops,
    Python indexing, flat FITS mosaics.  Definitions only. *)
From Coq Require Export List Arith ZArith QArith Qround Bool.
Export ListNotations.
Open Scope Z_scope.

(** Python exception classes (and C failure modes) met in the modelled code. *)
Inductive err : Type :=
| ValueError | IndexError | KeyError | TypeError | AssertionError
| RuntimeError | MEDSCreationError | ZeroDivisionError | LinAlgError
| UnboundLocalError | AttributeError | NotImplementedError | OverflowError
| FitsError        (* the FITS library rejects the request *)
| OutOfFuel        (* a loop of the code did not finish within the fuel *)
| CExit.           (* the C code prints a message and calls exit() *)

Inductive res (A : Type) : Type :=
| Ok (a : A)
| Err (e : err).
Arguments Ok {A} a.
Arguments Err {A} e.

Definition bind {A B} (x : res A) (f : A -> res B) : res B :=
  match x with Ok a => f a | Err e => Err e end.

Notation "'let*' x ':=' e 'in' k" := (bind e (fun x => k))
  (at level 200, x pattern, e at level 100, k at level 200, right associativity).

Definition rmap {A B} (f : A -> B) (x : res A) : res B :=
  match x with Ok a => Ok (f a) | Err e => Err e end.

Definition is_ok {A} (x : res A) : bool := match x with Ok _ => true | Err _ => false end.

(** [for x in xs: s = f(s, x)] where the body may raise. *)
Fixpoint foldM {S X} (f : S -> X -> res S) (xs : list X) (s : S) : res S :=
  match xs with
  | [] => Ok s
  | x :: xs' => let* s' := f s x in foldM f xs' s'
  end.

(** [[f(x) for x in xs]] where the body may raise. *)
Fixpoint mapM {X Y} (f : X -> res Y) (xs : list X) : res (list Y) :=
  match xs with
  | [] => Ok []
  | x :: xs' => let* y := f x in let* ys := mapM f xs' in Ok (y :: ys)
  end.

(** [range(n)] *)
Definition zrange (n : Z) : list Z := map Z.of_nat (seq 0 (Z.to_nat n)).

Definition zlen {A} (l : list A) : Z := Z.of_nat (length l).

(** Plain list access at a non-negative integer index; [None] outside. *)
Definition zget {A} (l : list A) (i : Z) : option A :=
  if i <? 0 then None else nth_error l (Z.to_nat i).

(** Python/numpy element access: one negative wrap, IndexError outside. *)
Definition py_index {A} (l : list A) (i : Z) : res A :=
  match zget l (if i <? 0 then i + zlen l else i) with
  | Some a => Ok a
  | None => Err IndexError
  end.

(** In-place element update [l[i] = a] at a non-negative index. *)
Fixpoint upd {A} (l : list A) (i : nat) (a : A) : list A :=
  match l, i with
  | [], _ => []
  | _ :: l', O => a :: l'
  | x :: l', S i' => x :: upd l' i' a
  end.

(** [l[i] = g(l[i])], IndexError outside. *)
Definition modify {A} (l : list A) (i : nat) (g : A -> A) : res (list A) :=
  match nth_error l i with
  | Some a => Ok (upd l i (g a))
  | None => Err IndexError
  end.

(** Reading [hdu[a:b]] of a one dimensional FITS image.  Inside the contract
    [0 <= a < b <= size] the pixels are exact; outside the model gives
    [FitsError]. *)
Definition slice {A} (m : list A) (a b : Z) : res (list A) :=
  if (0 <=? a) && (a <? b) && (b <=? zlen m)
  then Ok (firstn (Z.to_nat (b - a)) (skipn (Z.to_nat a) m))
  else Err FitsError.

(** Writing a flat array at offset [k] of a reserved one dimensional FITS
    image ([hdu.write(im, start=k)]). *)
Definition write_at {A} (m : list A) (k : Z) (xs : list A) : res (list A) :=
  if (0 <=? k) && (k + zlen xs <=? zlen m)
  then Ok (firstn (Z.to_nat k) m ++ xs ++ skipn (Z.to_nat k + length xs) m)
  else Err FitsError.
