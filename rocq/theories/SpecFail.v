(** Vocabulary for the statements on writes that fail. *)
From Coq Require Import String.
From Verif Require Import Base Img Types MakerLayout MakerWrite MakerFile MakerFail ExampleData.
Open Scope Z_scope.

(** The same maker asked for the first [n] cutout types only, and for no psf. *)
Definition first_types (m : maker) (n : nat) : maker :=
  let k := mk_conf m in
  mkMaker (mkMconf (k_l k) (k_p k) (k_unusable k) (firstn n (k_types k)) (k_joblib k) (k_njob k) (k_number_col k))
    (mk_rows m) None (mk_cat m).

(** The images of an example whose second image has no weight. *)
Definition ex_no_weight (s : source) : source :=
  mkSource (src_bytes s) (src_image s) (src_bkg s) PBlank (src_seg s) (src_bmask s) (src_ormask s) (src_noise s) (src_scale s).
Definition ex_fail_rows : list imrow :=
  match ex_rows with
  | a :: b :: l => a :: mkImrow (ir_image b) (ex_no_weight (ir_src b)) (ir_path b) (ir_id b) :: l
  | l => l
  end.
Definition ex_maker (rows : list imrow) (psf : option (list psfobj)) : res maker :=
  new_maker ex_conf ex_types rows psf ex_objs.

(** A PSF object that announces another shape than it gives. *)
Definition ex_liar (n : Z) : psfobj :=
  mkPsf (fun r c _ => tab2 n n (fun i j => inject_Z (100 * n + 10 * i + j))) (Some (fun _ _ _ => (n, n + 1)))
    (fun _ _ => (1#2, 1#2)%Q).
Definition ex_empty_disk : disk := fun _ => None.
Definition ex_fail_maker : maker :=
  mkMaker (mkMconf (k_l ex_conf) (k_p ex_conf) (k_unusable ex_conf) [TImage; TWeight; TSeg; TBmask]
             (k_joblib ex_conf) (k_njob ex_conf) (k_number_col ex_conf))
    ex_fail_rows None (init_cat (k_l ex_conf) (map ir_image ex_fail_rows) ex_objs).
