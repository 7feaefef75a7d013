(** What a configuration means, independent of the model's functions.  Definitions only. *)
From Coq Require Import String.
From Verif Require Import Base Img Types BoundsM MakerLayout MakerWrite MakerFile Config.
Open Scope Z_scope.
Open Scope string_scope.

(** No key occurs twice, also in the dicts inside the dict and inside those. *)
Definition unique (d : dict) : Prop :=
  NoDup (map fst d) /\
  forall k e, In (k, VDict e) d -> NoDup (map fst e) /\
    forall k' f, In (k', VDict f) e -> NoDup (map fst f).

Definition given (d : dict) (k : string) : Prop := exists v, In (k, v) d.

(** The value in force: the given one, else the default. *)
Definition in_force (d : dict) (k : string) (default v : cval) : Prop :=
  In (k, v) d \/ (~ given d k /\ v = default).

(** The values Python counts as false. *)
Inductive falsy : cval -> Prop :=
| F_none : falsy VNone
| F_bool : falsy (VBool false)
| F_int : falsy (VInt 0)
| F_num q : (q == 0)%Q -> falsy (VNum q)
| F_str : falsy (VStr "")
| F_strs : falsy (VStrs [])
| F_dict : falsy (VDict []).

(** The option is on, when the default is [default]. *)
Definition on (d : dict) (k : string) (default : bool) : Prop :=
  exists v, in_force d k (VBool default) v /\ ~ falsy v.

(** An entry d[k1][k2]..., on. *)
Definition on1 (d : dict) (k1 k2 : string) : Prop :=
  exists e v, In (k1, VDict e) d /\ In (k2, v) e /\ ~ falsy v.
Definition on2 (d : dict) (k1 k2 k3 : string) : Prop :=
  exists e f v, In (k1, VDict e) d /\ In (k2, VDict f) e /\ In (k3, v) f /\ ~ falsy v.

(** Numbers; True and False count as 1 and 0. *)
Inductive number : cval -> Q -> Prop :=
| N_int z : number (VInt z) (inject_Z z)
| N_num q : number (VNum q) q
| N_true : number (VBool true) 1
| N_false : number (VBool false) 0.
Inductive integer : cval -> Z -> Prop :=
| I_int z : integer (VInt z) z
| I_true : integer (VBool true) 1
| I_false : integer (VBool false) 0.

(** The keys the maker looks at. *)
Definition known : list string :=
  ["bounds_buffer_uv"; "coadd_bounds_buffer_rowcol"; "first_image_is_coadd"; "check_in_coadd";
   "force_into_coadd_bounds"; "trim_to_coadd"; "bitmask_allowed"; "cutout_types";
   "image_dtype"; "weight_dtype"; "seg_dtype"; "bmask_dtype"; "ormask_dtype"; "noise_dtype";
   "ncutout_max"; "unusable_bmask"; "min_weight"; "psf"; "psf_type"; "coadd_astrom"; "se_astrom";
   "joblib"; "use_joblib"].

(** Every entry has the type it must have. *)
Definition dict_or_absent (d : dict) (k : string) : Prop :=
  forall v, In (k, v) d -> exists e, v = VDict e.
Definition well_typed (d : dict) : Prop :=
  (forall v, In ("cutout_types", v) d ->
     exists l, v = VStrs l /\ forall t, In t l -> In t ["image"; "weight"; "seg"; "bmask"; "ormask"; "noise"]) /\
  (forall v, In ("bitmask_allowed", v) d -> exists q, number v q) /\
  (forall k v, In k ["bounds_buffer_uv"; "coadd_bounds_buffer_rowcol"] -> In (k, v) d -> exists q, number v q) /\
  (forall k v, In k ["ncutout_max"; "unusable_bmask"] -> In (k, v) d -> exists z, integer v z) /\
  (forall k v, In k ["image_dtype"; "weight_dtype"; "seg_dtype"; "bmask_dtype"; "ormask_dtype"; "noise_dtype"] ->
     In (k, v) d -> exists s, v = VStr s) /\
  (forall k, In k ["coadd_astrom"; "se_astrom"; "joblib"] -> dict_or_absent d k) /\
  (~ given d "psf_type" -> forall v, In ("psf", v) d ->
     exists e, v = VDict e /\ dict_or_absent e "coadd" /\ dict_or_absent e "se").

(** The number types of the pixels and their defaults. *)
Definition dtype_defaults : list (string * string) :=
  [("image_dtype", "f4"); ("weight_dtype", "f4"); ("seg_dtype", "i4");
   ("bmask_dtype", "i4"); ("ormask_dtype", "i4"); ("noise_dtype", "f4")].

(** The names that are written: image first, otherwise as given. *)
Inductive types_in_order : list string -> list string -> Prop :=
| TO_absent l : ~ In "image" l -> types_in_order l ("image" :: l)
| TO_given a b : ~ In "image" a -> types_in_order (a ++ "image" :: b) ("image" :: a ++ b).

(** * Example data *)
Definition ex_config : dict :=
  [("cutout_types", VStrs ["weight"; "image"; "seg"]); ("first_image_is_coadd", VStr "False");
   ("trim_to_coadd", VInt 1); ("check_in_coadd", VNone); ("ncutout_max", VInt 7);
   ("psf", VDict [("type", VStr "piff"); ("se", VDict [("use_color", VBool true)])]);
   ("comment", VStr "test"); ("coadd_bounds_buffer_rowcol", VInt 2)].
Definition ex_cols : columns := mkColumns false false true true.
Definition ex_psf_both : dict :=
  [("psf", VDict [("se", VDict [("use_color", VBool true)])]); ("psf_type", VStr "piff")].
Definition ex_joblib_off : dict :=
  [("use_joblib", VBool false); ("joblib", VDict [("max_workers", VInt 4)])].
Definition ex_config_file : dict :=
  [("cutout_types", VStrs ["weight"]); ("coadd_bounds_buffer_rowcol", VInt 2)].
