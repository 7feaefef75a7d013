(** MEDSMaker and the arrays of the program that makes it, meds/maker.py.  Definitions
    only.  An array is a cell of the memory.  What the files contain is computed by
    MakerFile and Meta. *)
From Coq Require Import String.
From Verif Require Import Base Img Types MakerLayout MakerWrite MakerFile Meta.
Open Scope Z_scope.

(** obj_data, image_info, meta_data (with its number of rows), the list psf_data, psf_info. *)
Inductive gcell : Type :=
| GObj (l : list obj) | GInfo (l : list imrow) | GMeta (t : table) (n : Z) | GPsf (l : list psfobj) | GPsfInfo (t : table).
Definition gmem : Type := list gcell.

(** The attributes of a maker: settings, and where its arrays are. *)
Record hmaker : Type := mkHmaker {
  hm_conf : mconf; hm_info : nat; hm_meta : nat; hm_obj : nat; hm_psf : option nat; hm_psf_info : option nat }.

Definition get_obj (m : gmem) (a : nat) : res (list obj) := match nth_error m a with Some (GObj l) => Ok l | _ => Err TypeError end.
Definition get_info (m : gmem) (a : nat) : res (list imrow) := match nth_error m a with Some (GInfo l) => Ok l | _ => Err TypeError end.
Definition get_meta (m : gmem) (a : nat) : res (table * Z) := match nth_error m a with Some (GMeta t n) => Ok (t, n) | _ => Err TypeError end.
Definition get_psfs (m : gmem) (a : nat) : res (list psfobj) := match nth_error m a with Some (GPsf l) => Ok l | _ => Err TypeError end.
Definition get_psf_info (m : gmem) (a : nat) : res table := match nth_error m a with Some (GPsfInfo t) => Ok t | _ => Err AssertionError end.
Definition opt {A} (g : nat -> res A) (a : option nat) : res (option A) :=
  match a with None => Ok None | Some a => let* x := g a in Ok (Some x) end.

(** The arguments of MEDSMaker. *)
Record margs : Type := mkMargs {
  ma_conf : mconf; ma_types : list string;
  ma_obj : nat; ma_info : nat; ma_meta : option nat; ma_psf : option nat; ma_psf_info : option nat }.

(** meds/maker.py 63-83 [__init__]: image_info (1393-1398), meta_data (1185-1221) and
    obj_data (1223-1230, 1328-1355) are new arrays, psf_data (1232-1248) and psf_info
    (1250-1253) are the program's own. *)
Definition make_maker (vs : versions) (x : margs) (m : gmem) : res (gmem * hmaker) :=
  let* rows := get_info m (ma_info x) in
  let* meta_in := opt (get_meta m) (ma_meta x) in
  let* meta := set_meta_data vs (option_map fst meta_in) (match meta_in with Some (_, n) => n | None => 0 end) in
  let* psf := opt (get_psfs m) (ma_psf x) in
  let* _ := opt (get_psf_info m) (ma_psf_info x) in
  let* input := get_obj m (ma_obj x) in
  let* mk := new_maker (ma_conf x) (ma_types x) rows psf input in
  Ok (m ++ [GInfo rows; GMeta meta (match meta_in with Some (_, n) => n | None => 1 end); GObj (mk_cat mk)],
      mkHmaker (mk_conf mk) (length m) (S (length m)) (S (S (length m))) (ma_psf x) (ma_psf_info x)).

(** A written file: pixels and catalogue, metadata, psf_info. *)
Definition wfile : Type := (medsfile * table * option table)%type.

(** meds/maker.py 85-132 [write]: the maker's obj_data is changed (in place, or replaced
    by the resized one); after a failure it is left as it was here. *)
Definition write_maker (h : hmaker) (junk : ctype -> Z -> Q) (pjunk : Z -> Q) (m : gmem) : gmem * res wfile :=
  match (let* rows := get_info m (hm_info h) in
         let* meta := get_meta m (hm_meta h) in
         let* cat := get_obj m (hm_obj h) in
         let* psf := opt (get_psfs m) (hm_psf h) in
         let* w := write (mkMaker (hm_conf h) rows psf cat) junk pjunk in
         let* pinfo := opt (get_psf_info m) (hm_psf_info h) in
         Ok (mk_cat (fst w), (snd w, fst meta, pinfo))) with
  | Ok (cat, f) => (upd m (hm_obj h) (GObj cat), Ok f)
  | Err e => (m, Err e)
  end.

(** A program: it makes makers from its arrays, calls their write, and changes its
    arrays.  Its arrays are the first ones of the memory. *)
Inductive maction : Type :=
| Make (x : margs)
| Write (i : nat) (junk : ctype -> Z -> Q) (pjunk : Z -> Q)
| Change (a : nat) (c : gcell).
Definition mstate : Type := (gmem * list hmaker)%type.

Definition mact (vs : versions) (n : nat) (st : mstate) (a : maction) : mstate * option (res wfile) :=
  let '(m, hs) := st in
  match a with
  | Make x => match make_maker vs x m with Ok (m', h) => ((m', hs ++ [h]), None) | Err e => (st, Some (Err e)) end
  | Write i junk pjunk =>
    match nth_error hs i with
    | Some h => let '(m', f) := write_maker h junk pjunk m in ((m', hs), Some f)
    | None => (st, Some (Err KeyError))
    end
  | Change a c => if Nat.ltb a n then ((upd m a c, hs), None) else (st, None)
  end.
Fixpoint mrun (vs : versions) (n : nat) (st : mstate) (acts : list maction) : mstate :=
  match acts with [] => st | a :: acts' => mrun vs n (fst (mact vs n st a)) acts' end.
