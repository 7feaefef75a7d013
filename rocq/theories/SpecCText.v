(** Specification of the text of make-meds-input: how it is read. *)
From Coq Require Import String Ascii Qpower Qabs.
From Verif Require Import Base Img Types Typed SpecTyped CLib CProg.
Open Scope Z_scope.

(** A decimal digit. *)
Definition digit_of (c : ascii) : option Z :=
  let n := Z.of_nat (nat_of_ascii c) in if (48 <=? n) && (n <=? 57) then Some (n - 48) else None.
(** The digits at the start, and the rest. *)
Fixpoint span (s : list ascii) : list Z * list ascii :=
  match s with
  | [] => ([], [])
  | c :: s' => match digit_of c with
               | Some d => let '(ds, r) := span s' in (d :: ds, r)
               | None => ([], s) end
  end.
Definition number (ds : list Z) : Z := fold_left (fun a d => 10 * a + d) ds 0.

(** Integers. *)
Definition read_nat (s : list ascii) : option Z :=
  match span s with (d :: ds, []) => Some (number (d :: ds)) | _ => None end.
Definition read_int (s : list ascii) : option Z :=
  match s with "-"%char :: s' => option_map Z.opp (read_nat s') | _ => read_nat s end.

(** Decimal numbers: digits, point, digits, exponent. *)
Definition read_exponent (s : list ascii) : option Z :=
  match s with
  | [] => Some 0
  | "e"%char :: "-"%char :: s' => option_map Z.opp (read_nat s')
  | "e"%char :: "+"%char :: s' => read_nat s'
  | _ => None
  end.
Definition read_unsigned (s : list ascii) : option Q :=
  let '(ip, s1) := span s in
  let '(fp, s2) := match s1 with "."%char :: s' => span s' | _ => ([], s1) end in
  match ip, read_exponent s2 with
  | _ :: _, Some e => Some (inject_Z (number (ip ++ fp)) * Qpower (10#1) (e - zlen fp))%Q
  | _, _ => None
  end.
Definition read_decimal (s : list ascii) : option Q :=
  match s with "-"%char :: s' => option_map Qopp (read_unsigned s') | _ => read_unsigned s end.

(** What a program gets that reads the text as a double: the double nearest to the
    decimal number. *)
Definition read_double (s : list ascii) : option fl :=
  if list_eq_dec ascii_dec s ["n"; "a"; "n"]%char then Some NaN
  else if list_eq_dec ascii_dec s ["i"; "n"; "f"]%char then Some (Inf false)
  else if list_eq_dec ascii_dec s ["-"; "i"; "n"; "f"]%char then Some (Inf true)
  else option_map (fround true) (read_decimal s).

(** The parts of a text between the characters [c]. *)
Fixpoint split_at (c : ascii) (s : list ascii) : list (list ascii) :=
  match s with
  | [] => [[]]
  | x :: s' => if ascii_dec x c then [] :: split_at c s'
               else match split_at c s' with w :: ws => (x :: w) :: ws | [] => [[x]] end
  end.
(** Lines end with a newline. *)
Definition text_lines (s : list ascii) : list (list ascii) := removelast (split_at (ascii_of_nat 10) s).
Definition words_of (s : list ascii) : list (list ascii) := split_at (ascii_of_nat 32) s.

(** A line as read: four words. *)
Definition read_line (s : list ascii) (id : Z) (row col : option fl) (box : Z) : Prop :=
  exists w1 w2 w3 w4, words_of s = [w1; w2; w3; w4] /\ read_int w1 = Some id /\ read_int w4 = Some box /\
    read_double w2 = row /\ read_double w3 = col.

(** [w] is the double [v] up to 10^-15 of it, infinities and NaN as they are. *)
Definition close_double (v w : fl) : Prop :=
  match v, w with
  | Fin q, Fin y => (Qabs (y - q) <= Qpower (10#1) (-15) * Qabs q)%Q
  | Inf s, Inf s' => s = s'
  | NaN, NaN => True
  | _, _ => False
  end.

(** Numbers that are doubles, of less than 10^30. *)
Definition plain_double (v : fl) : Prop :=
  match v with Fin q => is_float true q /\ (Qabs q <= inject_Z (10 ^ 30))%Q | _ => True end.
(** The line [t] gives the id, the position up to 10^-15 of it, and the box. *)
Definition says (t : list ascii) (id : Z) (row col : fl) (box : Z) : Prop :=
  exists row' col', read_line t id (Some row') (Some col') box /\ close_double row row' /\ close_double col col'.
