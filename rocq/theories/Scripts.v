(** Model of the programs scripts/meds-extract-range, scripts/meds-extract-catalog
    and scripts/meds-compare.  Definitions only.
    Words are ASCII.  What is printed is not modelled.  An exception that nobody
    catches ends the interpreter with status 1. *)
From Coq Require Import String Ascii.
From Verif Require Import Base Img Types Extract Compare CProg.
Open Scope Z_scope.

(** * Python's [int] of a text *)

(** Digits, single underscores between them; what follows is returned. *)
Fixpoint int_digits (acc : Z) (after_digit : bool) (s : string) : option (Z * string) :=
  match s with
  | EmptyString => if after_digit then Some (acc, s) else None
  | String c s' =>
    match digit c with
    | Some d => int_digits (10 * acc + d) true s'
    | None => if negb after_digit then None
              else if Ascii.eqb c "_"%char then int_digits acc false s' else Some (acc, s)
    end
  end.
(** White space, a sign, digits, white space; anything else is a ValueError.  The
    largest length of a text that newer interpreters accept is not modelled. *)
Definition py_int (s : string) : res Z :=
  let s := skip_spaces s in
  let '(sign, s) := match s with
                    | String "-"%char s' => (-1, s')
                    | String "+"%char s' => (1, s')
                    | _ => (1, s)
                    end in
  match int_digits 0 false s with
  | Some (n, rest) => match skip_spaces rest with EmptyString => Ok (sign * n) | _ => Err ValueError end
  | None => Err ValueError
  end.

(** * optparse with its help option only *)

(** What a word of the command line is: the end of the options, a request for
    help, an option that there is not (or one with a value it does not take),
    an argument.  A long option may be abbreviated; the first letter decides in a
    group of short ones. *)
Inductive word : Type := EndOfOptions | Help | BadOption | Argument.
Fixpoint has_equals (s : string) : bool :=
  match s with EmptyString => false | String c s' => Ascii.eqb c "="%char || has_equals s' end.
Definition classify (w : string) : word :=
  match w with
  | String "-"%char (String "-"%char EmptyString) => EndOfOptions
  | String "-"%char (String "-"%char name) =>
    if has_equals name then BadOption else if prefix name "help" then Help else BadOption
  | String "-"%char (String c _) => if Ascii.eqb c "h"%char then Help else BadOption
  | _ => Argument
  end.

(** The result of OptionParser.parse_args: the arguments, or the exit status. *)
Inductive parsed : Type := Arguments_ (l : list string) | Exits (status : Z).
Fixpoint parse_args (args : list string) : parsed :=
  match args with
  | [] => Arguments_ []
  | w :: args' =>
    match classify w with
    | EndOfOptions => Arguments_ args'
    | Help => Exits 0
    | BadOption => Exits 2
    | Argument => match parse_args args' with Arguments_ l => Arguments_ (w :: l) | x => x end
    end
  end.

(** Status of the interpreter. *)
Definition status {A} (x : res A) : Z := match x with Ok _ => 0 | Err _ => 1 end.

Section Programs.
Context {M : Type}.
Variable resolve : string -> Z.
Variable order : list Z -> list Z.

(** scripts/meds-extract-range 17-29 [main]; meds/extractor.py 15-24 [extract_range].
    The arguments after the fourth are not looked at. *)
Definition extract_range_main (args : list string) (d : disk M) : disk M * Z :=
  match parse_args args with
  | Exits n => (d, n)
  | Arguments_ (meds_file :: a :: b :: out_file :: _) =>
    match py_int a, py_int b with
    | Ok start, Ok end_ =>
      let '(d', x) := extractor_life resolve order (ByRange start end_ false) meds_file out_file false d in
      (d', status x)
    | _, _ => (d, 1)
    end
  | Arguments_ _ => (d, 1)
  end.

(** scripts/meds-extract-catalog 18-28 [main]; meds/extractor.py 27-36 [extract_catalog]. *)
Definition extract_catalog_main (args : list string) (d : disk M) : disk M * Z :=
  match parse_args args with
  | Exits n => (d, n)
  | Arguments_ (meds_file :: out_file :: _) =>
    let '(d', x) := extractor_life resolve order CatalogOnly meds_file out_file false d in
    (d', status x)
  | Arguments_ _ => (d, 1)
  end.

(** scripts/meds-compare 5-25: the options after argparse (which is not modelled);
    the matching is always by the column id here. *)
Record compare_args : Type := mkCargs {
  a_file1 : string; a_file2 : string; a_nrand : option Z; a_no_nepoch : bool; a_rms_tol : Q; a_png : bool }.

(** scripts/meds-compare 27-43 [main]; meds/compare.py 12-29: the constructor opens
    both files; the tolerance of weights is fixed. *)
Definition compare_main (clip : list Q -> res unit) (match_ids : list Z -> list Z -> list (Z * Z))
  (subset : ctype -> Z -> Z -> list Z) (args : compare_args) (d : disk M) : Z :=
  match d (resolve (a_file1 args)), d (resolve (a_file2 args)) with
  | Present f1 _, Present f2 _ =>
    let k := mkComp (a_rms_tol args) (1#10000) (negb (a_no_nepoch args))
               (if a_png args then PngString else PngNone) clip in
    status (go k match_ids subset f1 f2 (a_nrand args))
  | _, _ => 1
  end.
End Programs.
