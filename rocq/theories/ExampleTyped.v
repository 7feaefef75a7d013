(** Typed files for the examples: a coadd in f4 with background in f8, an image in
    f8, masks of 16, 32 and 64 bits. *)
From Coq Require Import String.
From Verif Require Import Base Img Types MakerLayout MakerWrite MakerFile Typed ExampleData.
Open Scope Z_scope.

Definition ex_ub (x : fl) : Z := 17.
Definition ex_fimg (n m base : Z) : img num := tab2 n m (fun r c => NF (Fin (inject_Z (base + 20 * r + c)))).
Definition ex_iimg (n m base step : Z) : img num := tab2 n m (fun r c => NI (base + step * (20 * r + c))).
(** 0.1 in double precision *)
Definition ex_tenth : Q := 3602879701896397 # (2 ^ 55).

Definition ex_tsrc1 (mask : arr) : tsource :=
  mkTsource false (QFile (mkArr (KF false) (ex_fimg 9 10 1000))) (QFile (mkArr (KF true) (ex_fimg 9 10 7)))
    (QFile (mkArr (KF false) (ex_fimg 9 10 3))) (QFile (mkArr (KI false 16) (ex_iimg 9 10 5 1)))
    (QFile mask) QBlank QBlank (SNp true (Fin ex_tenth)).
Definition ex_tsrc2 : tsource :=
  mkTsource false (QFile (mkArr (KF true) (tab2 6 7 (fun r c => if r =? 2 then NF NaN else NF (Fin (inject_Z (2000 + c))))))) QNone
    (QFile (mkArr (KF false) (ex_fimg 6 7 9))) QBlank
    (QFile (mkArr (KI true 32) (ex_iimg 6 7 0 1))) QBlank QBlank SOne.
Definition ex_trows : list trow :=
  [ mkTrow (mkImage (ex_wcs 9 10 0 0) 1) (ex_tsrc1 (mkArr (KI false 16) (ex_iimg 9 10 0 1)));
    mkTrow (mkImage (ex_wcs 6 7 (-2) (-1)) 1) ex_tsrc2 ].
Definition ex_tjunk (t : ctype) (i : Z) : num := NI (-77).
Definition ex_tmake (R : rules) : res tfile :=
  make_typed R ex_ub (k_l ex_conf) (Some 4) default_kinds ex_types ex_trows ex_objs ex_tjunk.

(** A mask of 64 bits whose bits above the 32nd are used, and numbers of 64 bits. *)
Definition ex_tsrc3 : tsource :=
  mkTsource false (QFile (mkArr (KF false) (ex_fimg 9 10 1000))) QBlank
    (QFile (mkArr (KF false) (ex_fimg 9 10 3))) (QFile (mkArr (KI true 64) (ex_iimg 9 10 (2 ^ 32) 0)))
    (QFile (mkArr (KI true 64) (ex_iimg 9 10 (2 ^ 40) 0))) QBlank QBlank SOne.
Definition ex_trows3 : list trow := [ mkTrow (mkImage (ex_wcs 9 10 0 0) 1) ex_tsrc3 ].

(** An image of 16 bit integers. *)
Definition ex_tsrc4 : tsource :=
  mkTsource false (QFile (mkArr (KI false 16) (ex_iimg 9 10 1000 1))) QBlank
    (QFile (mkArr (KF false) (ex_fimg 9 10 3))) QBlank QBlank QBlank QBlank SOne.
Definition ex_trows4 : list trow := [ mkTrow (mkImage (ex_wcs 9 10 0 0) 1) ex_tsrc4 ].
Definition ex_tobjs : list obj := [ex_obj 11 1 3 (11#2) (9#2)].
