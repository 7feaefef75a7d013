(** Data for the examples of PropCText. *)
From Coq Require Import String Ascii Qpower.
From Verif Require Import Base Img Types Typed CLib CProg ExampleCLib ExampleCProg.
Open Scope Z_scope.

Definition chars (s : string) : list ascii := list_ascii_of_string s.
Definition newline : string := String (ascii_of_nat 10) "".
(** A position where doubles are closer than the printed digits. *)
Definition ex_fine : Q := (1000 + Qpower (2#1) (-43))%Q.
(** The largest double. *)
Definition ex_largest : Q := inject_Z (2 ^ 1024 - 2 ^ 971).
Definition ex_lines : list (Z * fl * fl * Z) :=
  [(12, Fin (2469#2), Fin (-1#8), 48); (-7, Fin (1#1048576), NaN, 32); (0, Inf true, Fin 0, 2)].
