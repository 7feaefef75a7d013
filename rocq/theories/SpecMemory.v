(** What a program expects of the arrays it is handed: the answers a newly opened
    file gives, whatever was done to them. *)
From Verif Require Import Base Img Types Reader BoundsM MakerLayout Composite Fast3tree Uberseg Memory.
Open Scope Z_scope.

Definition image_answer (x : res (img Q)) : res answer := let* im := x in Ok (AImages [im]).
Definition list_answer (x : res (list (img Q))) : res answer := let* l := x in Ok (AImages l).

(** The answer of a call on the file [f], newly opened. *)
Definition file_answer (fuel : nat) (f : medsfile) (q : call) : res answer :=
  match q with
  | QCutout i k t => image_answer (get_cutout_any f i k t)
  | QMosaic i t => image_answer (get_mosaic_any f i t)
  | QCutouts i t => list_answer (get_cutout_list_any f i t)
  | QCweight i k b => image_answer (get_cweight_cutout f i k b)
  | QCweightMosaic i b => image_answer (get_cweight_mosaic f i b)
  | QCweights i b => list_answer (get_cweight_cutout_list f i b)
  | QUberseg i k fast => image_answer (get_uberseg fuel f i k fast)
  | QUbersegs i fast => list_answer (get_uberseg_list fuel f i fast)
  | QCseg i k => image_answer (get_cseg_cutout f i k)
  | QCsegMosaic i => image_answer (get_cseg_mosaic f i)
  | QCsegs i => list_answer (get_cseg_cutout_list f i)
  | QCsegWeight i k b => image_answer (get_cseg_weight f i k b)
  | QInterpolate i k => image_answer (interpolate_coadd_seg f i k)
  | QInterpolateMosaic i => image_answer (interpolate_coadd_seg_mosaic f i)
  | QJacobianMatrix i k => image_answer (let* j := get_jacobian_matrix f i k in
                                         let '(a, b, c, d) := j in Ok (mkImg 2 2 [a; b; c; d]))
  | QPath i k => let* p := get_source_path f i k in Ok (APath p)
  | QJacobian i k => let* j := get_jacobian f i k in Ok (AJac j)
  | QNumber i => let* n := get_number f i in Ok (ANumber n)
  end.

Fixpoint calls (acts : list action) : list call :=
  match acts with
  | [] => []
  | Call q :: acts' => q :: calls acts'
  | _ :: acts' => calls acts'
  end.

(** The program does not assign to the tables of the MEDS object. *)
Definition leaves_tables (a : action) : Prop :=
  match a with Call _ | Assign _ _ => True | AssignCat _ | AssignInfo _ => False end.

(** The answers when the tables are assigned to: those of the file with the tables
    as they were last assigned. *)
Fixpoint table_answers (fuel : nat) (f : medsfile) (acts : list action) : list (res answer) :=
  match acts with
  | [] => []
  | Call q :: acts' => file_answer fuel f q :: table_answers fuel f acts'
  | Assign _ _ :: acts' => table_answers fuel f acts'
  | AssignCat l :: acts' => table_answers fuel (with_tables f l (m_info f)) acts'
  | AssignInfo l :: acts' => table_answers fuel (with_tables f (m_cat f) l) acts'
  end.

(** The values of the [h]-th array the program was handed, as they are now. *)
Definition held_value (st : state) (h : nat) : option (res (img Q)) :=
  match nth_error (snd st) h with
  | Some v => Some (snd (values v (fst st)))
  | None => None
  end.

(** A file with two objects, two and one cutouts of 2x2 pixels. *)
Definition mx_slot (st : Z) : slot :=
  mkSlot 0 st 5 5 4 4 1 1 1 0 0 1 DEFVAL DEFVAL DEFVAL qdef qdef DEFVAL.
Definition mx_obj (id ncut st : Z) : obj :=
  mkObj id id 2 0 0 0 0 0 0 0 0 ncut [mx_slot st; mx_slot (st + 4)].
Definition mx_file : medsfile :=
  mkMeds [mx_obj 1 2 0; mx_obj 2 1 8] true PsfNone [mkInfo 7 1 0 1]
    [(TImage, map inject_Z (zrange 12)); (TWeight, repeat 1%Q 12);
     (TSeg, map inject_Z [1; 1; 2; 1; 0; 1; 1; 1; 2; 2; 2; 2])] None.
Definition mx_zero : img Q := mkImg 2 2 [0; 0; 0; 0]%Q.
Definition mx_acts : list action :=
  [Call (QCutouts 0 (RCut TImage)); Assign 0 mx_zero; Call (QCutout 0 0 (RCut TImage)); Call (QCweights 0 false);
   Assign 4 mx_zero; Call (QUberseg 0 1 false); Call (QCsegMosaic 0); Call (QCutout 1 1 (RCut TImage)); Call (QPath 1 0)].
Definition mx_reader : reader := mkReader mx_file 1 2.
Definition mx_mem : mem := [CPix mx_zero; CCat (m_cat mx_file); CInfo (m_info mx_file)].
