(** Model of how MEDSMaker turns the [config] argument into its settings,
    meds/maker.py and meds/defaults.py.  Definitions only. *)
From Coq Require Import String.
From Verif Require Import Base Img Types BoundsM MakerLayout MakerWrite MakerFile.
Open Scope Z_scope.
Open Scope string_scope.

(** The values of a configuration (what json or yaml give). *)
Inductive cval : Type :=
| VNone | VBool (b : bool) | VInt (z : Z) | VNum (q : Q) | VStr (s : string)
| VStrs (l : list string) | VDict (d : list (string * cval)).

(** A dict in the order of insertion. *)
Definition dict : Type := list (string * cval).

(** [d.get(k)] *)
Fixpoint lookup (d : dict) (k : string) : option cval :=
  match d with
  | [] => None
  | (k', v) :: d' => if String.eqb k' k then Some v else lookup d' k
  end.
(** [k in d] *)
Definition has (d : dict) (k : string) : bool :=
  match lookup d k with Some _ => true | None => false end.
(** [d[k] = v] *)
Definition put (d : dict) (k : string) (v : cval) : dict :=
  if has d k then map (fun e => if String.eqb (fst e) k then (k, v) else e) d
  else (d ++ [(k, v)])%list.
(** [d.update(e)] *)
Definition update (d e : dict) : dict := fold_left (fun d e => put d (fst e) (snd e)) e d.

(** [bool(v)] *)
Definition truth (v : cval) : bool :=
  match v with
  | VNone => false
  | VBool b => b
  | VInt z => negb (z =? 0)%Z
  | VNum q => negb (Qeq_bool q 0)
  | VStr s => negb (String.eqb s "")
  | VStrs l => match l with [] => false | _ => true end
  | VDict d => match d with [] => false | _ => true end
  end.

(** meds/defaults.py 15-50 [default_config] *)
Definition default_config : dict :=
  [("bounds_buffer_uv", VNum 16); ("coadd_bounds_buffer_rowcol", VNum (1 # 1000));
   ("first_image_is_coadd", VBool true); ("check_in_coadd", VBool true);
   ("force_into_coadd_bounds", VBool true); ("bitmask_allowed", VInt 0);
   ("cutout_types", VStrs []);
   ("image_dtype", VStr "f4"); ("weight_dtype", VStr "f4"); ("seg_dtype", VStr "i4");
   ("bmask_dtype", VStr "i4"); ("ormask_dtype", VStr "i4"); ("noise_dtype", VStr "f4")].

(** The argument [config=]. *)
Inductive carg : Type := NoConfig | NotDict | Config (d : dict).

(** [self[k]] *)
Definition item (self : dict) (k : string) : res cval :=
  match lookup self k with Some v => Ok v | None => Err KeyError end.
(** A list of names; anything else makes _set_cutout_types raise TypeError or AttributeError
    (meds/maker.py 1163-1168); the kind is not told apart. *)
Definition as_strs (v : cval) : res (list string) :=
  match v with VStrs l => Ok l | _ => Err TypeError end.
(** A value used in arithmetic. *)
Definition as_num (v : cval) : res Q :=
  match v with
  | VNum q => Ok q | VInt z => Ok (inject_Z z) | VBool b => Ok (if b then 1 else 0)%Q
  | _ => Err TypeError end.
(** A value used as an integer (a float is cut toward zero by the u4 array of 1452;
    text that numpy would read as a number is an error here). *)
Definition as_int (v : cval) : res Z :=
  match v with
  | VInt z => Ok z | VBool b => Ok (if b then 1 else 0) | VNum q => Ok (qtrunc q)
  | _ => Err TypeError end.
(** A value compared or combined with integers (ncutout_max, unusable_bmask). *)
Definition as_exact_int (v : cval) : res Z :=
  match v with VInt z => Ok z | VBool b => Ok (if b then 1 else 0) | _ => Err TypeError end.
Definition as_str (v : cval) : res string :=
  match v with VStr s => Ok s | _ => Err TypeError end.
(** [self.get(k, {})] followed by [.get]: only a dict has that. *)
Definition sub (self : dict) (k : string) : res dict :=
  match lookup self k with
  | None => Ok [] | Some (VDict d) => Ok d | Some _ => Err AttributeError end.
(** An entry that may be missing. *)
Definition maybe {A} (f : cval -> res A) (self : dict) (k : string) : res (option A) :=
  match lookup self k with None => Ok None | Some v => let* a := f v in Ok (Some a) end.
(** [d.get(k, False)] as a condition *)
Definition flag (d : dict) (k : string) : bool :=
  match lookup d k with None => false | Some v => truth v end.

(** meds/maker.py 1439-1446: the defaults, then the argument. *)
Definition merged (config : carg) : res dict :=
  let self := update [] default_config in
  match config with
  | NoConfig => Ok self
  | NotDict => Err RuntimeError
  | Config d => Ok (update self d)
  end.

(** meds/maker.py 1420-1433 [_set_extra_config] *)
Definition extra_config : dict :=
  [("object_data_extname", VStr "object_data"); ("image_info_extname", VStr "image_info");
   ("metadata_extname", VStr "metadata");
   ("image_cutout_extname", VStr "image_cutouts"); ("weight_cutout_extname", VStr "weight_cutouts");
   ("seg_cutout_extname", VStr "seg_cutouts"); ("bmask_cutout_extname", VStr "bmask_cutouts");
   ("ormask_cutout_extname", VStr "ormask_cutouts"); ("noise_cutout_extname", VStr "noise_cutouts")].

(** meds/maker.py 1435-1474 [_load_config] and [_set_extra_config]: the maker as a dict,
    and whether joblib is used. *)
Definition load_config (config : carg) : res (dict * bool) :=
  let* self := merged config in
  let* v := item self "cutout_types" in
  let* l := as_strs v in
  let* l := set_cutout_types l in
  let self := put self "cutout_types" (VStrs l) in
  let* v := item self "bitmask_allowed" in
  let* allowed := as_int v in
  let self := put self "bitmask_allowed" (VInt (u4 allowed)) in
  let self := put self "bitmask_allowed_inv" (VInt (bitmask_allowed_inv allowed)) in
  let self := match lookup self "psf_type" with
              | Some t => put self "psf" (VDict [("type", t)])
              | None => self end in
  let use := if has self "joblib" then true else flag self "use_joblib" in
  let* _ := sub self "joblib" in
  Ok (update self extra_config, use).

(** Which optional columns the input catalog has. *)
Record columns : Type := mkColumns {
  col_color : bool; col_wcs_color : bool; col_psf_color : bool; col_number : bool }.

(** What the maker takes out of itself later on. *)
Record settings : Type := mkSettings {
  st_conf : mconf;            (* layout, psf, joblib; k_types is set by new_maker *)
  st_types : list string;     (* "cutout_types" *)
  st_uv : Q;                  (* "bounds_buffer_uv", meds/maker.py 1122-1123 *)
  st_dtype : list string;     (* "<type>_dtype" in the order of SUPPORTED_CUTOUT_TYPES, 176, 271 *)
  st_extname : list string;   (* "<type>_cutout_extname" in that order, 175 *)
  st_psf : bool;              (* "psf" in self, 1244 *)
  st_min_weight : bool }.     (* "min_weight" in self, 568 *)

(** meds/maker.py: the places where the entries are read.  An entry of the wrong type
    is an error here at once; the code raises when the entry is first used. *)
Definition settings_of (self : dict) (use_joblib : bool) (njob : Z) (c : columns) : res settings :=
  let* v := item self "first_image_is_coadd" in let first := truth v in
  let* v := item self "check_in_coadd" in let check := truth v in
  let* v := item self "force_into_coadd_bounds" in let force := truth v in
  let* v := item self "coadd_bounds_buffer_rowcol" in let* buffer := as_num v in
  let* nmax := maybe as_exact_int self "ncutout_max" in
  let* ca := sub self "coadd_astrom" in
  let* sa := sub self "se_astrom" in
  let* psf := sub self "psf" in
  let* pc := sub psf "coadd" in
  let* ps := sub psf "se" in
  let* unusable := maybe as_exact_int self "unusable_bmask" in
  let* v := item self "cutout_types" in let* types := as_strs v in
  let* v := item self "bounds_buffer_uv" in let* uv := as_num v in
  let* dt := mapM (fun t => let* v := item self (t ++ "_dtype") in as_str v)
                  (map ctype_name SUPPORTED) in
  let* en := mapM (fun t => let* v := item self (t ++ "_cutout_extname") in as_str v)
                  (map ctype_name SUPPORTED) in
  Ok (mkSettings
        (mkMconf (mkLconf first check force (flag self "trim_to_coadd") buffer nmax
                          (col_color c) (col_wcs_color c)
                          (flag ca "use_color") (flag sa "use_color"))
                 (mkPconf (col_psf_color c) (flag pc "use_color") (flag ps "use_color"))
                 unusable [] use_joblib njob (col_number c))
        types uv dt en (has self "psf") (has self "min_weight")).

Definition configure (config : carg) (njob : Z) (c : columns) : res settings :=
  let* s := load_config config in settings_of (fst s) (snd s) njob c.

(** MEDSMaker(obj_data, image_info, psf_data, config=config).write(...), meta data and
    psf_info left out.  The assertion of meds/maker.py 1244 follows the length check of new_maker.
    When min_weight is given, reading the first weight image raises (568-569). *)
Definition make_from_config (config : carg) (njob : Z) (c : columns) (rows : list imrow)
  (psf : option (list psfobj)) (input : list obj) (junk : ctype -> Z -> Q) (pjunk : Z -> Q)
  : res medsfile :=
  let* s := configure config njob c in
  let* m := new_maker (st_conf s) (st_types s) rows psf input in
  let* _ := match psf with
            | Some _ => if st_psf s then Ok tt else Err AssertionError
            | None => Ok tt end in
  let* mf := write m junk pjunk in
  if st_min_weight s && existsb (fun t => String.eqb "weight" t) (st_types s)
     && match rows with [] => false | _ => true end
  then Err RuntimeError else Ok (snd mf).
