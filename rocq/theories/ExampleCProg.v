(** Files for the examples of PropCProg. *)
From Coq Require Import String.
From Verif Require Import Base Img Types CLib CProg ExampleCLib.
Open Scope Z_scope.

Definition ex_secat : list secat :=
  [ mkSecat (7#2) (5#2) 1 20 1 6 (3#2) 2 1; mkSecat 20 31 3 300 5 90 (9#2) 1 (1#2) ].
Definition ex_files : files := fun n =>
  if String.eqb n "cat" then Some (CCat ex_secat)
  else if String.eqb n "ids" then Some (CWords [Some 501; Some (-502)])
  else if String.eqb n "few" then Some (CWords [Some 501; None; Some 502])
  else if String.eqb n "long" then Some (CWords [Some 501; Some 502; None])
  else if String.eqb n "meds" then Some (CMeds ex_cfile)
  else None.
