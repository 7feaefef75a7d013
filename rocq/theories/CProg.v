(** Model of the programs src/make-meds-input.c and src/meds-get-cutout.c and of
    meds_cutout_write_fits of src/meds.c.  Definitions only.
    Standard error is not modelled.  C integers do not overflow. *)
From Coq Require Import String Ascii.
From Verif Require Import Base Img Types CLib.
Open Scope Z_scope.

(** [atoi]: white space, a sign, digits; the rest of the text is ignored. *)
Definition is_space (c : ascii) : bool := let n := nat_of_ascii c in (n =? 32)%nat || ((9 <=? n)%nat && (n <=? 13)%nat).
Definition digit (c : ascii) : option Z :=
  let n := nat_of_ascii c in if (48 <=? n)%nat && (n <=? 57)%nat then Some (Z.of_nat n - 48) else None.
Fixpoint read_digits (acc : Z) (s : string) : Z :=
  match s with
  | EmptyString => acc
  | String c s' => match digit c with Some d => read_digits (10 * acc + d) s' | None => acc end
  end.
Fixpoint skip_spaces (s : string) : string :=
  match s with String c s' => if is_space c then skip_spaces s' else s | EmptyString => s end.
Definition atoi (s : string) : Z :=
  match skip_spaces s with
  | String "-"%char s' => - read_digits 0 s'
  | String "+"%char s' => read_digits 0 s'
  | s' => read_digits 0 s'
  end.

(** The content of a file, as far as the programs look at it: a MEDS file, a FITS
    image, a SExtractor catalog, a text of words. *)
Record secat : Type := mkSecat {
  y_image : Q; x_image : Q; ymin : Z; ymax : Z; xmin : Z; xmax : Z; flux_rad : Q; a_world : Q; b_world : Q }.
(** A word as [fscanf("%ld")] sees it: a number or something else. *)
Inductive content : Type :=
| CMeds (f : cfile)
| CImage (im : img Q)
| CCat (rows : list secat)
| CWords (w : list (option Z)).
Definition files : Type := string -> option content.

(** The result of a program: exit status, standard output, files. *)
Record run (A : Type) : Type := mkRun { r_status : Z; r_out : list A; r_files : files }.
Arguments mkRun {A} r_status r_out r_files.
Arguments r_status {A} r.
Arguments r_out {A} r.
Arguments r_files {A} r.

(** * src/make-meds-input.c *)

(** src/make-meds-input.c 34-48 [struct obj], the fields that are used *)
Record iobj : Type := mkIobj {
  io_id : Z; io_row : Q; io_col : Q; io_rowmin : Z; io_rowmax : Z; io_colmin : Z; io_colmax : Z;
  io_flux_radius : Q; io_ellipticity : Q }.

(** src/make-meds-input.c 184-215 [load_rows]: one row; [k] counts from zero.  A
    zero a_world gives an infinite or undefined ellipticity, whose conversion to
    int in get_sigma_size is undefined. *)
Definition load_irow (k : Z) (r : secat) : res iobj :=
  if Qeq_bool (a_world r) 0 then Err ZeroDivisionError
  else Ok (mkIobj k (y_image r) (x_image r) (ymin r) (ymax r) (xmin r) (xmax r) (flux_rad r)
             (1 - b_world r / a_world r)%Q).
Definition load_rows (rows : list secat) : res (list iobj) :=
  mapM (fun k => match zget rows k with Some r => load_irow k r | None => Err IndexError end) (zrange (zlen rows)).

Definition set_id (o : iobj) (id : Z) : iobj :=
  mkIobj id (io_row o) (io_col o) (io_rowmin o) (io_rowmax o) (io_colmin o) (io_colmax o)
    (io_flux_radius o) (io_ellipticity o).

(** src/make-meds-input.c 251-262: the loop; [i] ids have been stored. *)
Fixpoint id_loop (words : list (option Z)) (i : Z) (cat : list iobj) : res (Z * list iobj) :=
  match words with
  | Some id :: words' =>
    if zlen cat <=? i then Err CExit
    else let* cat := modify cat (Z.to_nat i) (fun o => set_id o id) in id_loop words' (i + 1) cat
  | _ => Ok (i, cat)
  end.

(** src/make-meds-input.c 236-270 [cat_add_id_from_file] *)
Definition cat_add_id_from_file (cat : list iobj) (f : option content) : res (list iobj) :=
  match f with
  | None => Err CExit
  | Some (CWords words) =>
    let* x := id_loop words 0 cat in
    let '(i, cat) := x in
    if negb (i =? zlen cat) then Err CExit else Ok cat
  | Some _ => if negb (0 =? zlen cat) then Err CExit else Ok cat
  end.

(** src/make-meds-input.c 297-309 [cat_write_meds_input]: id, row, col, box size *)
Definition line : Type := Z * Q * Q * Z.
Definition input_line (minsize maxsize : Z) (o : iobj) : line :=
  (io_id o, io_row o, io_col o,
   get_box_size (io_rowmin o) (io_rowmax o) (io_colmin o) (io_colmax o) (io_flux_radius o) (io_ellipticity o) minsize maxsize).

(** src/make-meds-input.c 217-234 [read_cat], 366-393 [main]; [args] without the
    name of the program.  [Err CExit]: exit(1). *)
Definition make_input (args : list string) (fs : files) : res (list line) :=
  match args with
  | infile :: mn :: mx :: rest =>
    let minsize := fft_round_size (atoi mn) in
    let maxsize := fft_round_size (atoi mx) in
    let* cat := match fs infile with Some (CCat rows) => load_rows rows | _ => Err CExit end in
    let* cat := match rest with
                | idf :: _ => cat_add_id_from_file cat (fs idf)
                | [] => Ok cat end in
    Ok (map (input_line minsize maxsize) cat)
  | _ => Err CExit
  end.
(** The program never writes a file; nothing is printed before everything is computed. *)
Definition make_meds_input (args : list string) (fs : files) : res (run line) :=
  match make_input args fs with
  | Ok lines => Ok (mkRun 0 lines fs)
  | Err CExit => Ok (mkRun 1 [] fs)
  | Err e => Err e
  end.

(** * src/meds-get-cutout.c *)

Definition write_file (fs : files) (name : string) (c : content) : files :=
  fun n => if String.eqb n name then Some c else fs n.

(** src/meds.c 1557-1603 [meds_cutout_write_fits] with clobber: the image of
    mosaic_ncol (first axis) by mosaic_nrow pixels, row after row from rows[0].
    [creatable]: cfitsio can create a file of that name; the extended file name
    syntax of cfitsio is not modelled. *)
Definition c_write_fits (creatable : string -> bool) (im : cimage) (name : string) (fs : files) : res files :=
  if negb (creatable name) then Ok fs
  else
    let* p := mem (ci_rows im) 0 in
    if (p <? 0) || (zlen (ci_pix im) <? p + ci_mosaic_size im) then Err IndexError
    else
      let* out := reshape (firstn (Z.to_nat (ci_mosaic_size im)) (skipn (Z.to_nat p) (ci_pix im)))
                    (ci_mosaic_nrow im) (ci_mosaic_ncol im) in
      Ok (write_file fs name (CImage out)).

(** src/meds-get-cutout.c 5-46 [main]: main ends without return, the status is 0. *)
Definition meds_get_cutout (creatable : string -> bool) (args : list string) (fs : files) : res (run unit) :=
  match args with
  | meds_file :: outfile :: i :: rest =>
    let index := atoi i in
    let* meds := match fs meds_file with Some (CMeds f) => meds_open f | _ => Ok None end in
    match meds with
    | None => Ok (mkRun 1 [] fs)
    | Some m =>
      let* image := match rest with
                    | k :: _ => c_get_cutout m TImage index (atoi k)
                    | [] => c_get_mosaic m TImage index end in
      match image with
      | Some im => let* fs := c_write_fits creatable im outfile fs in Ok (mkRun 0 [] fs)
      | None => Ok (mkRun 0 [] fs)
      end
    end
  | _ => Ok (mkRun 1 [] fs)
  end.
