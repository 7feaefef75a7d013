(** The file of coadds written by a maker with a generator, once or again. *)
From Coq Require Import Lia ZifyBool ZifyNat Qabs Lqa Qfield Permutation.
From Verif Require Import Base BaseLemmas Img ImgLemmas Types Reader BoundsM MakerLayout MakerWrite MakerFile Composite Coadd CoaddRng
  SpecTiles SpecFile SpecComposite SpecCoadd SpecCoaddRng ReadLemmas CalibLemmas CompositeLemmas OutlierLemmas
  CoaddLemmas CoaddLemmas2 CoaddLemmas3 CoaddLemmas4 CoaddLemmas5 CoaddLemmas6 CoaddRngLemmas CoaddRngLemmas2.
Open Scope Z_scope.

(** * One call: a coadder with some noise *)

Lemma step_nz c o nz nz' f iobj ims wts segs bms st i : nz (i + 1) = nz' (i + 1) ->
  obslist_step c (with_noise o nz) f iobj ims wts segs bms st i = obslist_step c (with_noise o nz') f iobj ims wts segs bms st i.
Proof.
  intros E. unfold obslist_step, interp_bad_pixels, make_noise_image. cbn [or_noise with_noise or_psf]. rewrite E. reflexivity.
Qed.

Lemma fold_nz c o g err f iobj ims wts segs bms : forall js st p st' p', NoDup js ->
  foldM (obslist_step_r c o g err f iobj ims wts segs bms) js (st, p) = Ok (st', p') ->
  exists nz, foldM (obslist_step c (with_noise o nz) f iobj ims wts segs bms) js st = Ok st'.
Proof.
  induction js as [|i js IH]; intros st p st' p' N H; cbn [foldM] in *.
  - inversion H; subst. exists (fun _ => noise_at g err p'). reflexivity.
  - apply bind_ok in H. destruct H as ([s1 p1] & S & H). inversion N as [|? ? N1 N2]; subst.
    destruct (IH _ _ _ _ N2 H) as (nz & F). unfold obslist_step_r in S. apply bind_ok in S. destruct S as (s1' & S & E). inversion E; subst; clear E.
    exists (fun k => if k =? i + 1 then noise_at g err p else nz k).
    rewrite (step_nz _ _ _ (fun _ => noise_at g err p)), S by (rewrite Z.eqb_refl; reflexivity). cbn [bind]. rewrite <- F.
    apply foldM_ext_in. intros s x X. apply step_nz. dif E; [|reflexivity]. exfalso. apply N1. replace i with x by lia. exact X.
Qed.

Lemma coadd_obs_nz c o g err f jm p iobj r fl p' : get_coadd_obs_r c o g err f jm p iobj = Ok (r, fl, p') ->
  exists nz, get_coadd_obs c (with_noise o nz) f jm iobj = Ok (r, fl).
Proof.
  intros H. unfold get_coadd_obs_r in H. apply bind_ok in H. destruct H as ([[l fs] q] & O & H).
  assert (G : exists nz, get_obslist c (with_noise o nz) f iobj = Ok (l, fs)).
  { unfold get_obslist_r in O. apply bind_ok in O. destruct O as (ims & IM & O). dif_in O E.
    - inversion O; subst. exists (fun _ => noise_at g err q). unfold get_obslist. rewrite IM. cbn [bind]. rewrite E. reflexivity.
    - apply bind_ok in O. destruct O as (wts & WT & O). apply bind_ok in O. destruct O as (bms & BM & O). apply bind_ok in O. destruct O as (wts' & RJ & O).
      apply bind_ok in O. destruct O as (segs & SG & O). apply bind_ok in O. destruct O as ([st q'] & F & O). cbn [fst snd] in O. inversion O; subst; clear O.
      apply fold_nz in F; [|apply zrange_NoDup]. destruct F as (nz & F). exists nz. unfold get_obslist. rewrite IM; cbn [bind]. rewrite E, WT; cbn [bind]. rewrite BM; cbn [bind].
      cbn [or_reject with_noise]. rewrite RJ; cbn [bind]. rewrite SG; cbn [bind]. rewrite F; cbn [bind]. reflexivity. }
  destruct G as (nz & G). exists nz. unfold get_coadd_obs. rewrite G. cbn [bind]. cbn [or_coadd with_noise].
  destruct l as [|ob0 l]; [inversion H; subst; reflexivity|].
  apply bind_ok in H. destruct H as (om & OM & H). rewrite OM; cbn [bind].
  apply bind_ok in H. destruct H as ([[[[[[im wt] noise] jac] psf] pr] pc] & OC & H). rewrite OC; cbn [bind].
  apply bind_ok in H. destruct H as (seg & SG & H). rewrite SG; cbn [bind]. apply bind_ok in H. destruct H as (fls & FL & H).
  rewrite FL; cbn [bind]. inversion H; subst. reflexivity.
Qed.

(** Stamps of the object's size from any position. *)
Definition stamps_r (f : medsfile) (cs : Z -> Z -> res (option cobs * Z * Z)) : Prop :=
  forall p, stamp_shapes f (fun j => let* x := cs p j in Ok (fst x)).

Lemma stamps_r_coadder c o g err f jm : reject_keeps_shapes o -> coadds_stamps o -> stamps_r f (get_coadd_obs_r c o g err f jm).
Proof.
  intros HR HC p j ob co fl HO H. apply bind_ok in H. destruct H as ([[r fl'] p'] & H & E). inversion E; subst; clear E.
  apply coadd_obs_nz in H. destruct H as (nz & H). exact (coadder_stamps c (with_noise o nz) f jm HR HC j ob co fl HO H).
Qed.

(** * Calls in a row, and the loop over the objects *)

Lemma calls_len cs : forall js p l p', coadd_calls cs p js = Ok (l, p') -> length l = length js.
Proof.
  induction js as [|j js IH]; intros p l p' H; cbn [coadd_calls] in H; [inversion H; reflexivity|].
  apply bind_ok in H. destruct H as (x & X & H). apply bind_ok in H. destruct H as ([l1 p1] & L & H). inversion H; subst. cbn [length fst]. f_equal. eapply IH. exact L.
Qed.

Lemma run_calls types cs : forall js st p st' p', NoDup js ->
  foldM (write_object_cutouts_r types cs) js (st, p) = Ok (st', p') ->
  exists l coadder, coadd_calls cs p js = Ok (l, p') /\ map coadder js = map Ok l /\
    (forall j x, coadder j = Ok x -> In j js /\ exists q q', cs q j = Ok (x, q')) /\
    foldM (write_object_cutouts types coadder) js st = Ok st'.
Proof.
  induction js as [|i js IH]; intros st p st' p' N H; cbn [foldM coadd_calls] in *.
  - inversion H; subst. exists [], (fun _ => Err KeyError). split; [reflexivity|]. split; [reflexivity|]. split; [discriminate|reflexivity].
  - apply bind_ok in H. destruct H as ([s1 p1] & S & H). inversion N as [|? ? N1 N2]; subst.
    destruct (IH _ _ _ _ N2 H) as (l & coadder & C & M & A & F). unfold write_object_cutouts_r in S. cbn [fst snd] in S.
    apply bind_ok in S. destruct S as ([x q] & X & S). apply bind_ok in S. destruct S as (s1' & S & E). cbn [fst snd] in *. inversion E; subst; clear E.
    rewrite X; cbn [bind snd fst]. rewrite C; cbn [bind fst snd].
    exists (x :: l), (fun k => if k =? i then Ok x else coadder k). split; [reflexivity|]. split; [|split].
    + cbn [map]. rewrite Z.eqb_refl. f_equal. rewrite <- M. apply map_ext_in. intros k K. dif E; [|reflexivity]. exfalso. apply N1. replace i with k by lia. exact K.
    + intros j y Y. dif_in Y E.
      * inversion Y; subst. replace j with i by lia. split; [left; reflexivity|]. exists p, p1. exact X.
      * destruct (A j y Y) as (I & Q). split; [right; exact I|exact Q].
    + assert (S' : write_object_cutouts types (fun k => if k =? i then Ok x else coadder k) st i = Ok s1).
      { unfold write_object_cutouts in S |- *. rewrite Z.eqb_refl. exact S. }
      rewrite S'. cbn [bind]. rewrite <- F. apply foldM_ext_in. intros s k K. unfold write_object_cutouts. dif E; [|reflexivity].
      exfalso. apply N1. replace i with k by lia. exact K.
Qed.

Lemma zrange2_NoDup a b : NoDup (zrange2 a b).
Proof. unfold zrange2. apply FinFun.Injective_map_NoDup; [intros x y; lia|apply zrange_NoDup]. Qed.
Lemma In_zrange2 a b j : In j (zrange2 a b) <-> a <= j < b.
Proof.
  unfold zrange2. rewrite in_map_iff. split.
  - intros (k & <- & K). apply In_zrange in K. lia.
  - intros H. exists (j - a). split; [lia|]. apply In_zrange. lia.
Qed.

Definition lo_hi (f : medsfile) (rg : option (Z * Z)) : Z * Z := match rg with Some r => r | None => (0, zlen (m_cat f)) end.
Definition asked_list (f : medsfile) (rg : option (Z * Z)) : list Z := zrange2 (fst (lo_hi f rg)) (snd (lo_hi f rg)).
Lemma asked_list_In f rg j : In j (asked_list f rg) <-> asked f rg j.
Proof. unfold asked_list, asked. rewrite In_zrange2. destruct rg as [[a b]|]; reflexivity. Qed.

(** What a write does, in terms of the loop without generator. *)
Lemma coadd_write_run f ct tp cs junk pjunk mk rg mk' f' : coadd_write f ct tp cs junk pjunk mk rg = Ok (mk', f') ->
  exists l coadder st, coadd_calls cs (cm_pos mk) (asked_list f rg) = Ok (l, cm_pos mk') /\
    map coadder (asked_list f rg) = map Ok l /\
    (forall j x, coadder j = Ok x -> asked f rg j /\ exists q q', cs q j = Ok (x, q')) /\
    foldM (write_object_cutouts (add_types ct) coadder) (asked_list f rg)
      (mkWstate (cm_rows mk) (reserve (add_types ct) (Coadd.zsum (map (fun o => o_box o ^ 2) (m_cat f))) junk) (map pjunk (zrange tp)) 0 0 0 0) = Ok st /\
    cm_rows mk' = ws_rows st /\
    f' = mkMeds (map cr_obj (ws_rows st)) true PsfBoxObj (firstn 1 (m_info f)) (ws_ext st) (Some (ws_psf st)).
Proof.
  intros H. unfold coadd_write in H. change (match rg with Some r => r | None => (0, zlen (m_cat f)) end) with (lo_hi f rg) in H.
  destruct (lo_hi f rg) as [a b] eqn:E. assert (EL : asked_list f rg = zrange2 a b) by (unfold asked_list; rewrite E; reflexivity).
  apply bind_ok in H. destruct H as ([st p] & F & H). cbn [fst snd] in H. inversion H; subst; clear H.
  apply run_calls in F; [|apply zrange2_NoDup]. destruct F as (l & coadder & C & M & A & F). exists l, coadder, st. rewrite EL. cbn [cm_pos cm_rows].
  split; [exact C|]. split; [exact M|]. split; [|split; [exact F|split; reflexivity]].
  intros j x X. destruct (A j x X) as (I & Q). split; [|exact Q]. apply asked_list_In. rewrite EL. exact I.
Qed.

Lemma fresh_write f ct tp cs junk pjunk mk rg mk' f' : coadd_maker f = Ok mk -> coadd_write f ct tp cs junk pjunk mk rg = Ok (mk', f') ->
  exists l coadder, coadd_calls cs 0 (asked_list f rg) = Ok (l, cm_pos mk') /\ map coadder (asked_list f rg) = map Ok l /\
    (forall j x, coadder j = Ok x -> asked f rg j /\ exists q q', cs q j = Ok (x, q')) /\
    write_coadds f ct tp junk pjunk coadder rg = Ok (cm_rows mk', f').
Proof.
  intros HM H. unfold coadd_maker in HM. apply bind_ok in HM. destruct HM as (rows & R & E). inversion E; subst; clear E.
  apply coadd_write_run in H. destruct H as (l & coadder & st & C & M & A & F & H1 & H2). exists l, coadder.
  split; [exact C|]. split; [exact M|]. split; [exact A|]. unfold write_coadds. rewrite R. cbn [bind].
  change (match rg with Some r => r | None => (0, zlen (m_cat f)) end) with (lo_hi f rg).
  unfold asked_list in F. destruct (lo_hi f rg) as [a b]. cbn [fst snd] in F. cbn [cm_rows] in F. rewrite F. cbn [bind]. rewrite H1, H2. reflexivity.
Qed.
