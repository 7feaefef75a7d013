(** What a program expects of the makers it makes: the file is that of the arrays as they
    were when the maker was made. *)
From Coq Require Import String.
From Verif Require Import Base Img Types MakerLayout MakerWrite MakerFile Meta MakerMem ExampleData.
Open Scope Z_scope.

(** The program uses its own [n] arrays. *)
Definition own (n : nat) (x : margs) : Prop :=
  (ma_obj x < n)%nat /\ (ma_info x < n)%nat /\
  (forall a, ma_meta x = Some a -> (a < n)%nat) /\ (forall a, ma_psf x = Some a -> (a < n)%nat) /\
  (forall a, ma_psf_info x = Some a -> (a < n)%nat).

(** What making a maker and writing at once gives: [given] the arrays obj_data,
    image_info and meta_data are taken from, [late] those of the psfs. *)
Definition expected (vs : versions) (x : margs) (given late : gmem) (junk : ctype -> Z -> Q) (pjunk : Z -> Q) : res wfile :=
  let* rows := get_info given (ma_info x) in
  let* meta_in := opt (get_meta given) (ma_meta x) in
  let* meta := set_meta_data vs (option_map fst meta_in) (match meta_in with Some (_, n) => n | None => 0 end) in
  let* psf0 := opt (get_psfs given) (ma_psf x) in
  let* input := get_obj given (ma_obj x) in
  let* mk := new_maker (ma_conf x) (ma_types x) rows psf0 input in
  let* psf := opt (get_psfs late) (ma_psf x) in
  let* w := write (mkMaker (mk_conf mk) rows psf (mk_cat mk)) junk pjunk in
  let* pinfo := opt (get_psf_info late) (ma_psf_info x) in
  Ok (snd w, meta, pinfo).

(** The program's arrays, changed only by the program. *)
Fixpoint changed (m : gmem) (acts : list maction) : gmem :=
  match acts with
  | [] => m
  | Change a c :: acts' => changed (upd m a c) acts'
  | _ :: acts' => changed m acts'
  end.

(** [i] is not written; psf_data and psf_info of [x] are left alone. *)
Definition not_writing (i : nat) (a : maction) : Prop := match a with Write j _ _ => j <> i | _ => True end.
Definition spares (x : margs) (a : maction) : Prop :=
  match a with Change b _ => ma_psf x <> Some b /\ ma_psf_info x <> Some b | _ => True end.

(** The file of the arrays as they are. *)
Definition file_of (vs : versions) (x : margs) (given : gmem) (junk : ctype -> Z -> Q) (pjunk : Z -> Q) : res wfile :=
  let* rows := get_info given (ma_info x) in
  let* meta_in := opt (get_meta given) (ma_meta x) in
  let* meta := set_meta_data vs (option_map fst meta_in) (match meta_in with Some (_, n) => n | None => 0 end) in
  let* psf := opt (get_psfs given) (ma_psf x) in
  let* input := get_obj given (ma_obj x) in
  let* f := make_meds (ma_conf x) (ma_types x) rows psf input junk pjunk in
  let* pinfo := opt (get_psf_info given) (ma_psf_info x) in
  Ok (f, meta, pinfo).

(** Example data: a maker of three images with psfs and a psf_info table; the program
    then empties obj_data, image_info and meta_data, or replaces a psf, or psf_info. *)
Definition kx_versions : versions := mkVersions "1.1"%string "2.2"%string "3.3"%string "4.4"%string "5.5"%string.
Definition kx_info (s : string) : table := [("psf_path"%string, [s])].
Definition kx_mem : gmem := [GObj ex_objs; GInfo ex_rows; GMeta [("run"%string, ["r1"%string])] 1; GPsf ex_psfs; GPsfInfo (kx_info "a"%string)].
Definition kx_args : margs := mkMargs ex_conf ex_types 0 1 (Some 2%nat) (Some 3%nat) (Some 4%nat).
Definition kx_pjunk (i : Z) : Q := inject_Z (-5).
Definition kx_spare : list maction := [Change 0 (GObj []); Change 1 (GInfo []); Change 2 (GMeta [] 0); Make kx_args].
Definition kx_new_psfs : list maction := [Change 3 (GPsf [ex_psf 1; ex_psf 1; ex_psf 1])].
Definition kx_new_info : list maction := [Change 4 (GPsfInfo (kx_info "b"%string))].
Definition kx_write (acts : list maction) : option (res wfile) :=
  snd (mact kx_versions 5 (mrun kx_versions 5 (kx_mem, []) (Make kx_args :: acts)) (Write 0 ex_junk kx_pjunk)).
(** The psf pixels and the psf_info table of what was written. *)
Definition kx_psf (w : option (res wfile)) : option Z :=
  match w with Some (Ok (f, _, _)) => option_map zlen (m_psf f) | _ => None end.
Definition kx_pinfo (w : option (res wfile)) : option table := match w with Some (Ok (_, _, p)) => p | _ => None end.
