(** The accessors of class MEDS, meds/meds.py, together with the memory of the
    process: which arrays they hand out, which they share, and what they change in
    place.  Definitions only.  An array is a cell of the memory, a view of split_mosaic
    is a block of rows of the mosaic's cell.  The numbers are those of Reader,
    Composite and Uberseg. *)
From Verif Require Import Base Img Types Reader BoundsM MakerLayout Composite Fast3tree Uberseg.
Open Scope Z_scope.

(** The two tables an open MEDS object keeps (meds/meds.py 176-178; metadata is
    like image_info and left out) and arrays of pixels. *)
Inductive cell : Type := CCat (l : list obj) | CInfo (l : list info) | CPix (im : img Q).
Definition mem : Type := list cell.

(** An array, or the [k]-th view made by split_mosaic of the array. *)
Inductive view : Type := VAll (a : nat) | VPart (a : nat) (k : Z).

(** A piece of code: it may change the memory, also when it raises. *)
Definition M (A : Type) : Type := mem -> mem * res A.
Definition mret {A} (x : A) : M A := fun m => (m, Ok x).
Definition mlift {A} (x : res A) : M A := fun m => (m, x).
Definition mbind {A B} (c : M A) (k : A -> M B) : M B :=
  fun m => match c m with (m', Ok x) => k x m' | (m', Err e) => (m', Err e) end.
Notation "'let!' x ':=' e 'in' k" := (mbind e (fun x => k))
  (at level 200, x pattern, e at level 100, k at level 200, right associativity).
Fixpoint mfor {X} (body : X -> M unit) (xs : list X) : M unit :=
  match xs with [] => mret tt | x :: xs' => let! _ := body x in mfor body xs' end.
Fixpoint mmap {X Y} (body : X -> M Y) (xs : list X) : M (list Y) :=
  match xs with
  | [] => mret []
  | x :: xs' => let! y := body x in let! ys := mmap body xs' in mret (y :: ys)
  end.

(** A new array. *)
Definition alloc (c : cell) : M nat := fun m => (m ++ [c], Ok (length m)).
Definition pix (a : nat) : M (img Q) :=
  fun m => (m, match nth_error m a with Some (CPix im) => Ok im | _ => Err TypeError end).

(** The values seen through a view: [mosaic[i*b:(i+1)*b, :]], meds/meds.py 1089-1093. *)
Definition block (im : img Q) (k : Z) : res (img Q) :=
  sub2d im (k * nc im) ((k + 1) * nc im) 0 (nc im).
Definition values (v : view) : M (img Q) :=
  match v with
  | VAll a => pix a
  | VPart a k => let! im := pix a in mlift (block im k)
  end.

(** [view[:, :] = im], in place; other shapes raise. *)
Definition assign (v : view) (im : img Q) : M unit :=
  match v with
  | VAll a =>
    let! old := pix a in
    if (nr old =? nr im) && (nc old =? nc im)
    then fun m => (upd m a (CPix im), Ok tt) else mlift (Err ValueError)
  | VPart a k =>
    let! old := pix a in
    let! new := mlift (paste old (k * nc old) ((k + 1) * nc old) 0 (nc old) im) in
    fun m => (upd m a (CPix new), Ok tt)
  end.

(** An open MEDS object: the file on disk and where its tables are,
    meds/meds.py 171-178. *)
Record reader : Type := mkReader { rd_fits : medsfile; rd_cat : nat; rd_info : nat }.
Definition open_reader (f : medsfile) : M reader :=
  let! c := alloc (CCat (m_cat f)) in
  let! i := alloc (CInfo (m_info f)) in
  mret (mkReader f c i).

(** What the accessors work with: pixels of the file, tables in memory. *)
Definition with_tables (f : medsfile) (cat : list obj) (infos : list info) : medsfile :=
  mkMeds cat (m_number_col f) (m_psf_cols f) infos (m_ext f) (m_psf f).
Definition seen (r : reader) : M medsfile :=
  fun m => (m, match nth_error m (rd_cat r), nth_error m (rd_info r) with
               | Some (CCat cat), Some (CInfo infos) => Ok (with_tables (rd_fits r) cat infos)
               | _, _ => Err TypeError end).

(** meds/meds.py 191-223, 225-255, 290-319: the pixels read from the file are a new array. *)
Definition mget_cutout (r : reader) (iobj icut : Z) (t : rtype) : M nat :=
  let! f := seen r in
  let! im := mlift (get_cutout_any f iobj icut t) in
  alloc (CPix im).
Definition mget_mosaic (r : reader) (iobj : Z) (t : rtype) : M nat :=
  let! f := seen r in
  let! im := mlift (get_mosaic_any f iobj t) in
  alloc (CPix im).

(** meds/meds.py 1071-1095 [split_mosaic]: the parts share the memory of the mosaic. *)
Definition msplit_mosaic (a : nat) : M (list view) :=
  let! mosaic := pix a in
  let box_size := nc mosaic in
  if box_size =? 0 then mlift (Err ZeroDivisionError)
  else mret (map (VPart a) (zrange (nr mosaic / box_size))).

(** meds/meds.py 344-358 [get_psf_list] and 257-282 [get_cutout_list] *)
Definition mget_psf_list (r : reader) (iobj : Z) : M (list view) :=
  let! f := seen r in
  let! o := mlift (py_index (m_cat f) iobj) in
  mmap (fun icut => let! a := mget_cutout r iobj icut RPsf in mret (VAll a)) (zrange (o_ncut o)).
Definition mget_cutout_list (r : reader) (iobj : Z) (t : rtype) : M (list view) :=
  match t with
  | RPsf => mget_psf_list r iobj
  | RCut _ => let! mosaic := mget_mosaic r iobj t in msplit_mosaic mosaic
  end.

(** meds/meds.py 963-1031 [_make_composite_image]: works on a copy of [im]. *)
Definition mcomposite (r : reader) (iobj icut : Z) (im : view) (coadd_seg : nat) (restrict_to_seg : bool)
  : M nat :=
  let! x := values im in
  let! cim := alloc (CPix x) in
  let! f := seen r in
  let! s := pix coadd_seg in
  let! new := mlift (make_composite_image f iobj icut x s restrict_to_seg) in
  let! _ := assign (VAll cim) new in
  mret cim.

(** meds/meds.py 360-385 [get_cweight_cutout] *)
Definition mget_cweight_cutout (r : reader) (iobj icut : Z) (restrict_to_seg : bool) : M nat :=
  let! wt := mget_cutout r iobj icut (RCut TWeight) in
  let! coadd_seg := mget_cutout r iobj 0 (RCut TSeg) in
  mcomposite r iobj icut (VAll wt) coadd_seg restrict_to_seg.

(** [for icutout, x in enumerate(split_mosaic(mosaic)): x[:, :] = g(icutout, x)] *)
Definition menumerate (mosaic : nat) (body : Z -> view -> M unit) : M unit :=
  let! parts := msplit_mosaic mosaic in
  mfor (fun kv => body (fst kv) (snd kv)) (combine (zrange (zlen parts)) parts).
Definition copy_into (v : view) (a : nat) : M unit :=
  let! x := pix a in assign v x.

(** meds/meds.py 387-417 [get_cweight_mosaic] *)
Definition mget_cweight_mosaic (r : reader) (iobj : Z) (restrict_to_seg : bool) : M nat :=
  let! wtmosaic := mget_mosaic r iobj (RCut TWeight) in
  let! coadd_seg := mget_cutout r iobj 0 (RCut TSeg) in
  let! _ := menumerate wtmosaic (fun icut wt =>
              let! cwt := mcomposite r iobj icut wt coadd_seg restrict_to_seg in
              copy_into wt cwt) in
  mret wtmosaic.

(** meds/meds.py 419-443 [get_cweight_cutout_list] *)
Definition mget_cweight_cutout_list (r : reader) (iobj : Z) (restrict_to_seg : bool) : M (list view) :=
  let! wtmosaic := mget_cweight_mosaic r iobj restrict_to_seg in
  msplit_mosaic wtmosaic.

(** [a[:, :] = self.get_number(iobj)] *)
Definition fill_number (r : reader) (iobj : Z) (a : nat) : M unit :=
  let! f := seen r in
  let! number := mlift (get_number f iobj) in
  let! x := pix a in
  assign (VAll a) (fill_with x (inject_Z number)).

(** meds/meds.py 543-566 [get_cseg_cutout] *)
Definition mget_cseg_cutout (r : reader) (iobj icut : Z) : M nat :=
  let! seg := mget_cutout r iobj icut (RCut TSeg) in
  let! _ := fill_number r iobj seg in
  let! coadd_seg := mget_cutout r iobj 0 (RCut TSeg) in
  mcomposite r iobj icut (VAll seg) coadd_seg false.

(** meds/meds.py 568-597 [get_cseg_mosaic], 599-620 [get_cseg_cutout_list] *)
Definition mget_cseg_mosaic (r : reader) (iobj : Z) : M nat :=
  let! segmosaic := mget_mosaic r iobj (RCut TSeg) in
  let! _ := fill_number r iobj segmosaic in
  let! coadd_seg := mget_cutout r iobj 0 (RCut TSeg) in
  let! _ := menumerate segmosaic (fun icut seg =>
              let! cseg := mcomposite r iobj icut seg coadd_seg false in
              copy_into seg cseg) in
  mret segmosaic.
Definition mget_cseg_cutout_list (r : reader) (iobj : Z) : M (list view) :=
  let! segmosaic := mget_cseg_mosaic r iobj in
  msplit_mosaic segmosaic.

(** meds/meds.py 736-784 [_interpolate_coadd_seg_image] with a centre: a zeroed copy
    of the coadd map is filled. *)
Definition minterpolate_image (r : reader) (iobj : Z) (jmatrix : mat) (cen : Q * Q) : M nat :=
  let! coadd_seg := mget_cutout r iobj 0 (RCut TSeg) in
  let! cs := pix coadd_seg in
  let! seg := alloc (CPix (imap (fun _ => 0%Q) cs)) in
  let! f := seen r in
  let! coadd_jacob := mlift (get_jacobian_matrix f iobj 0) in
  let! coadd_cen := mlift (get_cutout_rowcol f iobj 0) in
  let! cjinv := mlift (mat_inv coadd_jacob) in
  let! new := mlift (tab2M (nr cs) (nc cs) (fun r c =>
                let '(cr, cc) := to_coadd jmatrix cjinv cen coadd_cen (nr cs) (nc cs) r c in
                px_res cs cr cc)) in
  let! _ := assign (VAll seg) new in
  mret seg.

(** meds/meds.py 707-734 [interpolate_coadd_seg] *)
Definition minterpolate_coadd_seg (r : reader) (iobj icut : Z) : M nat :=
  let! coadd_seg := mget_cutout r iobj 0 (RCut TSeg) in
  if icut =? 0 then mret coadd_seg
  else
    let! f := seen r in
    let! jmatrix := mlift (get_jacobian_matrix f iobj icut) in
    let! cen := mlift (get_cutout_rowcol f iobj icut) in
    minterpolate_image r iobj jmatrix cen.

(** meds/meds.py 683-705 [interpolate_coadd_seg_mosaic] *)
Definition minterpolate_mosaic (r : reader) (iobj : Z) : M nat :=
  let! seg_mosaic := mget_mosaic r iobj (RCut TSeg) in
  let! _ := menumerate seg_mosaic (fun icut seg =>
              if icut =? 0 then mret tt
              else let! a := minterpolate_coadd_seg r iobj icut in copy_into seg a) in
  mret seg_mosaic.

(** meds/meds.py 622-681 [get_cseg_weight]: the weight map read, or a new array. *)
Definition mget_cseg_weight (r : reader) (iobj icut : Z) (use_canonical_cen : bool) : M nat :=
  let! seg := mget_cutout r iobj icut (RCut TSeg) in
  let! weight := mget_cutout r iobj icut (RCut TWeight) in
  let! f := seen r in
  let! number := mlift (number_col f iobj) in
  let! s := pix seg in
  let! w := pix weight in
  let wother := filter (fun p => match px s (fst p) (snd p) with
                                 | Some x => other_seg (inject_Z number) x | None => false end)
                       (positions (nr s) (nc s)) in
  match wother with
  | [] => mret weight
  | _ :: _ =>
    let! cen := mlift (if use_canonical_cen
                       then Ok ((inject_Z (nr w) - 1) / 2, (inject_Z (nc w) - 1) / 2)%Q
                       else get_cutout_rowcol f iobj icut) in
    let r2 := fun (r c : Z) => ((inject_Z r - fst cen) * (inject_Z r - fst cen)
                                + (inject_Z c - snd cen) * (inject_Z c - snd cen))%Q in
    let! minr2 := mlift (qmin (map (fun p => r2 (fst p) (snd p)) wother)) in
    let! new := mlift (tab2M (nr w) (nc w) (fun r c =>
                  let* x := px_res w r c in
                  Ok (if qltb (r2 r c) minr2 then x else 0%Q))) in
    alloc (CPix new)
  end.

(** meds/meds.py 445-508 [get_uberseg]: the composite weight is changed in place. *)
Definition mget_uberseg (fuel : nat) (r : reader) (iobj icut : Z) (fast : bool) : M nat :=
  let! weight := mget_cweight_cutout r iobj icut false in
  let! seg := minterpolate_coadd_seg r iobj icut in
  let! s := pix seg in
  if zlen (quniq (dat s)) =? 2 then mret weight
  else
    let inds := obj_inds s in
    let! f := seen r in
    let! object_number := mlift (number_col f iobj) in
    let! w := pix weight in
    let! new := mlift (if fast then uberseg_tree fuel (imap qtrunc s) w object_number inds
                       else uberseg_slow s w object_number inds) in
    let! _ := assign (VAll weight) new in
    mret weight.

(** meds/meds.py 510-539 [get_uberseg_list] *)
Definition mget_uberseg_list (fuel : nat) (r : reader) (iobj : Z) (fast : bool) : M (list view) :=
  let! f := seen r in
  let! o := mlift (py_index (m_cat f) iobj) in
  mmap (fun i => let! a := mget_uberseg fuel r iobj i fast in mret (VAll a)) (zrange (o_ncut o)).

(** meds/meds.py 876-900 [get_jacobian_matrix]: a new 2x2 array. *)
Definition mat_img (j : Q * Q * Q * Q) : img Q := let '(a, b, c, d) := j in mkImg 2 2 [a; b; c; d].
Definition mget_jacobian_matrix (r : reader) (iobj icut : Z) : M nat :=
  let! f := seen r in
  let! j := mlift (get_jacobian_matrix f iobj icut) in
  alloc (CPix (mat_img j)).

(** The accessors a program can call. *)
Inductive call : Type :=
| QCutout (iobj icut : Z) (t : rtype) | QMosaic (iobj : Z) (t : rtype) | QCutouts (iobj : Z) (t : rtype)
| QCweight (iobj icut : Z) (restrict : bool) | QCweightMosaic (iobj : Z) (restrict : bool)
| QCweights (iobj : Z) (restrict : bool)
| QUberseg (iobj icut : Z) (fast : bool) | QUbersegs (iobj : Z) (fast : bool)
| QCseg (iobj icut : Z) | QCsegMosaic (iobj : Z) | QCsegs (iobj : Z)
| QCsegWeight (iobj icut : Z) (canonical : bool)
| QInterpolate (iobj icut : Z) | QInterpolateMosaic (iobj : Z)
| QJacobianMatrix (iobj icut : Z)
| QPath (iobj icut : Z) | QJacobian (iobj icut : Z) | QNumber (iobj : Z).

(** What a program gets: arrays (views of the memory), or numbers. *)
Inductive handed : Type := HArrays (l : list view) | HPath (p : Z) | HJac (j : jacob) | HNumber (n : Z).

Definition one (c : M nat) : M handed := let! a := c in mret (HArrays [VAll a]).
Definition many (c : M (list view)) : M handed := let! l := c in mret (HArrays l).
Definition facts {A} (r : reader) (g : medsfile -> res A) (h : A -> handed) : M handed :=
  let! f := seen r in let! x := mlift (g f) in mret (h x).

Definition mcall (fuel : nat) (r : reader) (q : call) : M handed :=
  match q with
  | QCutout i k t => one (mget_cutout r i k t)
  | QMosaic i t => one (mget_mosaic r i t)
  | QCutouts i t => many (mget_cutout_list r i t)
  | QCweight i k b => one (mget_cweight_cutout r i k b)
  | QCweightMosaic i b => one (mget_cweight_mosaic r i b)
  | QCweights i b => many (mget_cweight_cutout_list r i b)
  | QUberseg i k fast => one (mget_uberseg fuel r i k fast)
  | QUbersegs i fast => many (mget_uberseg_list fuel r i fast)
  | QCseg i k => one (mget_cseg_cutout r i k)
  | QCsegMosaic i => one (mget_cseg_mosaic r i)
  | QCsegs i => many (mget_cseg_cutout_list r i)
  | QCsegWeight i k b => one (mget_cseg_weight r i k b)
  | QInterpolate i k => one (minterpolate_coadd_seg r i k)
  | QInterpolateMosaic i => one (minterpolate_mosaic r i)
  | QJacobianMatrix i k => one (mget_jacobian_matrix r i k)
  | QPath i k => facts r (fun f => get_source_path f i k) HPath
  | QJacobian i k => facts r (fun f => get_jacobian f i k) HJac
  | QNumber i => facts r (fun f => get_number f i) HNumber
  end.

(** A program using one MEDS object: it calls accessors, assigns to arrays it was
    handed ([h] counts them in the order they were handed out), or assigns to the
    tables, which get_cat, get_image_info, get_source_info and m[name] hand out
    themselves (meds/meds.py 802-803, 824-837, 1057-1058). *)
Inductive action : Type :=
| Call (q : call) | Assign (h : nat) (im : img Q) | AssignCat (l : list obj) | AssignInfo (l : list info).
Definition state : Type := (mem * list view)%type.

(** What a call returned, as values. *)
Inductive answer : Type := AImages (l : list (img Q)) | APath (p : Z) | AJac (j : jacob) | ANumber (n : Z).
Definition read_handed (x : handed) : M answer :=
  match x with
  | HArrays l => let! ims := mmap values l in mret (AImages ims)
  | HPath p => mret (APath p)
  | HJac j => mret (AJac j)
  | HNumber n => mret (ANumber n)
  end.
Definition views_of (x : handed) : list view := match x with HArrays l => l | _ => [] end.

Definition act (fuel : nat) (r : reader) (st : state) (a : action) : state * option (res answer) :=
  let '(m, held) := st in
  match a with
  | Call q =>
    match mcall fuel r q m with
    | (m', Ok x) => ((m', held ++ views_of x), Some (snd (read_handed x m')))
    | (m', Err e) => ((m', held), Some (Err e))
    end
  | Assign h im =>
    match nth_error held h with
    | Some v => ((fst (assign v im m), held), None)
    | None => (st, None)
    end
  | AssignCat l => ((upd m (rd_cat r) (CCat l), held), None)
  | AssignInfo l => ((upd m (rd_info r) (CInfo l), held), None)
  end.

(** The program runs; the answers of its calls in order. *)
Fixpoint session (fuel : nat) (r : reader) (st : state) (acts : list action) : state * list (res answer) :=
  match acts with
  | [] => (st, [])
  | a :: acts' =>
    let '(st', out) := act fuel r st a in
    let '(st'', outs) := session fuel r st' acts' in
    (st'', match out with Some o => o :: outs | None => outs end)
  end.
