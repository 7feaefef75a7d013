(** Lemmas on writes that fail: what the incomplete file holds. *)
From Coq Require Import Lia ZifyBool ZifyNat String.
From Verif Require Import Base BaseLemmas Img Types MakerLayout MakerWrite MakerFile MakerFail SpecFail FileLemmas FailLemmas.
Open Scope Z_scope.

(** * The psf columns do not matter for the mosaics *)
Definition same_cut (a b : slot) : Prop :=
  s_file a = s_file b /\ s_osr a = s_osr b /\ s_osc a = s_osc b /\ s_start a = s_start b.
Definition same_obj (a b : obj) : Prop :=
  o_ncut a = o_ncut b /\ o_box a = o_box b /\ Forall2 same_cut (o_slots a) (o_slots b).

Lemma same_refl s : same_cut s s. Proof. repeat split. Qed.

Lemma same_trans a b c : same_cut a b -> same_cut b c -> same_cut a c.
Proof. unfold same_cut. intuition congruence. Qed.

Lemma same_slots_refl l : Forall2 same_cut l l.
Proof. induction l; constructor; auto using same_refl. Qed.

Lemma same_slots_trans a b c : Forall2 same_cut a b -> Forall2 same_cut b c -> Forall2 same_cut a c.
Proof.
  intros H. revert c. induction H as [|x y a b E H IH]; intros c H2; inversion H2; subst; constructor; eauto using same_trans.
Qed.

Lemma upd_same l i s s' : nth_error l i = Some s -> same_cut s s' -> Forall2 same_cut l (upd l i s').
Proof.
  revert i. induction l as [|x l IH]; intros [|i]; cbn; intros H G; try discriminate.
  - injection H as ->. constructor; [exact G|apply same_slots_refl].
  - constructor; [apply same_refl|apply IH; assumption].
Qed.

Lemma psf_cut_same c pc ps o st icut st' : psf_layout_cut c pc ps o st icut = Ok st' ->
  Forall2 same_cut (fst (fst st)) (fst (fst st')).
Proof.
  destruct st as [[sl start] total]. unfold psf_layout_cut. intros H.
  apply bind_ok in H. destruct H as (s & _ & H). apply bind_ok in H. destruct H as (p & _ & H).
  apply bind_ok in H. destruct H as (sl' & M & H). injection H as <-. cbn [fst].
  unfold modify in M. destruct (nth_error sl (Z.to_nat icut)) as [a|] eqn:E; [|discriminate].
  injection M as <-. eapply upd_same; [exact E|]. repeat split.
Qed.

Lemma psf_cuts_same c pc ps o ics : forall st st', foldM (psf_layout_cut c pc ps o) ics st = Ok st' ->
  Forall2 same_cut (fst (fst st)) (fst (fst st')).
Proof.
  induction ics as [|i ics IH]; intros st st' H; cbn [foldM] in H.
  - injection H as <-. apply same_slots_refl.
  - apply bind_ok in H. destruct H as (st1 & E & H).
    eapply same_slots_trans; [eapply psf_cut_same; exact E|apply IH; exact H].
Qed.

Lemma psf_layout_same c pc ps cat : forall start total cat' s t,
  psf_layout_loop c pc ps cat start total = Ok (cat', s, t) -> Forall2 same_obj cat cat'.
Proof.
  induction cat as [|o cat IH]; intros start total cat' s t H; cbn [psf_layout_loop] in H.
  - injection H as <- _ _. constructor.
  - apply bind_ok in H. destruct H as ([[sl s1] t1] & E & H).
    apply bind_ok in H. destruct H as ([[cat1 s2] t2] & E2 & H). injection H as <- _ _.
    constructor; [|eapply IH; exact E2].
    split; [reflexivity|]. split; [reflexivity|]. apply (psf_cuts_same _ _ _ _ _ _ _ E).
Qed.

Lemma same_objs_refl cat : Forall2 same_obj cat cat.
Proof. induction cat; constructor; auto. split; [reflexivity|]. split; [reflexivity|apply same_slots_refl]. Qed.

Lemma slot_same a b k : same_obj a b ->
  (exists s s', get_slot a k = Ok s /\ get_slot b k = Ok s' /\ same_cut s s') \/
  (get_slot a k = Err IndexError /\ get_slot b k = Err IndexError).
Proof.
  intros (_ & _ & F). unfold get_slot, py_index.
  assert (L : zlen (o_slots a) = zlen (o_slots b)).
  { unfold zlen. f_equal. induction F; cbn; congruence. }
  rewrite L. generalize (if k <? 0 then k + zlen (o_slots b) else k). intros i.
  unfold zget. destruct (i <? 0); [right; auto|]. generalize (Z.to_nat i). clear -F.
  induction F as [|x y l l' E F IH]; intros [|n]; cbn; auto. left. eauto.
Qed.

Lemma foldM_rel {S X} (R : X -> X -> Prop) (f : S -> X -> res S) xs ys :
  Forall2 R xs ys -> (forall s x y, R x y -> f s x = f s y) -> forall s, foldM f xs s = foldM f ys s.
Proof.
  intros F H. induction F as [|x y xs ys E F IH]; intros s; cbn; [reflexivity|].
  rewrite (H s x y E). apply bind_ext. intros. apply IH.
Qed.

Lemma write_cutouts_same {A} (fill : res A) cat cat' nfile read hdu : Forall2 same_obj cat cat' ->
  write_cutouts fill cat nfile read hdu = write_cutouts fill cat' nfile read hdu.
Proof.
  intros F. apply foldM_ext. intros s fid. apply bind_ext. intros [im|] _; [|reflexivity].
  apply (foldM_rel same_obj); [exact F|]. clear. intros s a b E.
  destruct E as (E1 & E2 & E3). assert (E : same_obj a b) by (split; auto). rewrite E1.
  apply foldM_ext. intros hdu icut. unfold write_cutout.
  destruct (slot_same a b icut E) as [(x & y & Hx & Hy & (S1 & S2 & S3 & S4))|[Hx Hy]]; rewrite Hx, Hy; cbn [bind]; [|reflexivity].
  rewrite S1, E2, S2, S3, S4. reflexivity.
Qed.

(** * The mosaics of the first types *)
Definition one_type (u : option Z) (cat : list obj) (srcs : list source) (ext : list (ctype * list Q)) (t : ctype) :=
  match ext_find ext t with
  | None => Err FitsError
  | Some hdu =>
    let* hdu' := write_cutouts (default_values t) cat (zlen srcs)
                   (fun file_id => let* s := py_index srcs file_id in read_image u s t) hdu in
    Ok (ext_set ext t hdu')
  end.

Lemma write_types_eq u cat srcs types ext : write_types u cat srcs types ext = foldM (one_type u cat srcs) types ext.
Proof. reflexivity. Qed.

Lemma one_type_other u cat srcs ext t ext' t' : one_type u cat srcs ext t = Ok ext' -> t' <> t ->
  ext_find ext' t' = ext_find ext t'.
Proof.
  unfold one_type. intros H N. destruct (ext_find ext t); [|discriminate].
  apply bind_ok in H. destruct H as (h & _ & H). injection H as <-.
  rewrite ext_set_find. destruct (ctype_eqb t t') eqn:E; [|reflexivity].
  apply ctype_eqb_eq in E. congruence.
Qed.

Lemma write_types_other u cat srcs types : forall ext ext' t', write_types u cat srcs types ext = Ok ext' ->
  ~ In t' types -> ext_find ext' t' = ext_find ext t'.
Proof.
  induction types as [|t types IH]; intros ext ext' t' H N; rewrite write_types_eq in H; cbn [foldM] in H.
  - injection H as <-. reflexivity.
  - apply bind_ok in H. destruct H as (e1 & E & H). cbn [In] in N.
    rewrite (IH e1 ext' t' H) by tauto. apply (one_type_other _ _ _ _ _ _ _ E). intros ->. apply N. auto.
Qed.

Lemma types_left u cat srcs types : forall ext ext' e,
  types_on_disk u cat srcs types ext = (ext', Some e) ->
  exists n t ext1, nth_error types n = Some t /\ write_types u cat srcs (firstn n types) ext = Ok ext1 /\
    write_types u cat srcs (firstn (S n) types) ext = Err e /\
    forall t', t' <> t -> ext_find ext' t' = ext_find ext1 t'.
Proof.
  induction types as [|t types IH]; intros ext ext' e H; [discriminate|].
  unfold types_on_disk in H. cbn [loop] in H.
  destruct (ext_find ext t) as [hdu|] eqn:F.
  2:{ injection H as <- <-. exists 0%nat, t, ext. split; [reflexivity|]. split; [reflexivity|].
      split; [|reflexivity]. rewrite write_types_eq. cbn [foldM firstn]. unfold one_type. rewrite F. reflexivity. }
  pose proof (cutouts_agrees (default_values t) cat (zlen srcs)
    (fun file_id => let* s := py_index srcs file_id in read_image u s t) hdu) as A.
  destruct (cutouts_on_disk _ _ _ _ _) as [h [e'|]] eqn:EC.
  - injection H as <- <-.
    exists 0%nat, t, ext. split; [reflexivity|]. split; [reflexivity|]. split.
    + rewrite write_types_eq. cbn [foldM firstn]. unfold one_type. rewrite F.
      destruct (write_cutouts _ _ _ _ _) as [h'|e2]; cbn [agrees bind snd] in *; congruence.
    + intros t' N. rewrite ext_set_find. destruct (ctype_eqb t t') eqn:E; [|reflexivity].
      apply ctype_eqb_eq in E. congruence.
  - destruct (write_cutouts _ _ _ _ _) as [h'|e2] eqn:EW; cbn [agrees snd] in A; [|discriminate].
    injection A as <-. assert (O : one_type u cat srcs ext t = Ok (ext_set ext t h)).
    { unfold one_type. rewrite F, EW. reflexivity. }
    apply (IH (ext_set ext t h) ext' e) in H. destruct H as (n & t1 & ext1 & H1 & H2 & H3 & H4).
    exists (S n), t1, ext1. split; [exact H1|]. rewrite !write_types_eq in *. cbn [firstn foldM] in *.
    rewrite O. cbn [bind]. split; [exact H2|]. split; [exact H3|exact H4].
Qed.

(** Another catalog and other mosaics of the other types. *)
Lemma write_types_same u cat cat' srcs types : Forall2 same_obj cat cat' ->
  forall ts ext ext2, incl ts types -> (forall t, In t types -> ext_find ext t = ext_find ext2 t) ->
  match write_types u cat srcs ts ext, write_types u cat' srcs ts ext2 with
  | Ok x, Ok y => forall t, In t types -> ext_find x t = ext_find y t
  | Err e, Err e' => e = e'
  | _, _ => False
  end.
Proof.
  intros C. induction ts as [|t ts IH]; intros ext ext2 I E; rewrite !write_types_eq; cbn [foldM]; [exact E|].
  assert (X : one_type u cat' srcs ext2 t = match ext_find ext t with
    | None => Err FitsError
    | Some hdu => let* h := write_cutouts (default_values t) cat (zlen srcs)
        (fun file_id => let* s := py_index srcs file_id in read_image u s t) hdu in Ok (ext_set ext2 t h) end).
  { unfold one_type. rewrite <- (E t) by (apply I; left; reflexivity).
    destruct (ext_find ext t); [|reflexivity]. rewrite (write_cutouts_same _ cat cat' _ _ _ C). reflexivity. }
  rewrite X. clear X. unfold one_type at 1.
  destruct (ext_find ext t) as [hdu|] eqn:F; cbn [bind]; [|reflexivity].
  destruct (write_cutouts _ _ _ _ _) as [h|e]; cbn [bind]; [|reflexivity].
  apply (IH (ext_set ext t h) (ext_set ext2 t h)); [intros x Hx; apply I; right; exact Hx|].
  intros t' Ht'. rewrite !ext_set_find. rewrite <- (E t) by (apply I; left; reflexivity). rewrite F.
  destruct (ctype_eqb t t'); [reflexivity|apply E; exact Ht'].
Qed.

Lemma find_reserve types total junk t : In t types ->
  ext_find (reserve types total junk) t = Some (map (junk t) (zrange total)).
Proof.
  unfold reserve. induction types as [|x types IH]; cbn [map ext_find In]; [intros []|].
  destruct (ctype_eqb x t) eqn:E; intros H.
  - apply ctype_eqb_eq in E. subst x. reflexivity.
  - apply IH. destruct H as [->|H]; [rewrite ctype_eqb_refl in E; discriminate|exact H].
Qed.

Lemma layout_without_psf m cat total tp : full_layout (mk_conf m) (mk_rows m) (mk_psf m) (mk_cat m) = Ok (cat, total, tp) ->
  exists cat0, build_layout (k_l (mk_conf m)) (map ir_image (mk_rows m)) (mk_cat m) = Ok (cat0, total) /\ Forall2 same_obj cat0 cat.
Proof.
  unfold full_layout. intros H. apply bind_ok in H. destruct H as ([cat0 total0] & B & H). cbn [fst snd] in H.
  destruct (mk_psf m) as [p|].
  - apply bind_ok in H. destruct H as ([cat1 tp1] & E & H). cbn [fst snd] in H. injection H as -> -> ->.
    exists cat0. split; [exact B|]. unfold set_psf_layout in E. apply bind_ok in E.
    destruct E as ([[cat2 s] t] & E & H). injection H as -> ->. eapply psf_layout_same; exact E.
  - injection H as -> -> _. exists cat. split; [exact B|apply same_objs_refl].
Qed.

Lemma incl_firstn {A} n (l : list A) : incl (firstn n l) l.
Proof. intros x H. rewrite <- (firstn_skipn n l). apply in_or_app. auto. Qed.

(** What the maker restricted to the first types writes. *)
Lemma first_write m cat total tp junk pjunk n :
  full_layout (mk_conf m) (mk_rows m) (mk_psf m) (mk_cat m) = Ok (cat, total, tp) ->
  match write_types (k_unusable (mk_conf m)) cat (map ir_src (mk_rows m)) (firstn n (k_types (mk_conf m)))
          (reserve (k_types (mk_conf m)) total junk) with
  | Ok ext => exists m' g, write (first_types m n) junk pjunk = Ok (m', g) /\
      forall t, In t (firstn n (k_types (mk_conf m))) -> ext_find ext t = ext_find (m_ext g) t
  | Err e => write (first_types m n) junk pjunk = Err e
  end.
Proof.
  intros L. destruct (layout_without_psf m cat total tp L) as (cat0 & B & F).
  assert (F' : Forall2 same_obj cat cat0).
  { clear -F. induction F as [|a b l l' (E1 & E2 & E3) F IH]; constructor; [|exact IH].
    split; [congruence|]. split; [congruence|]. clear -E3. induction E3 as [|x y l l' (H1 & H2 & H3 & H4) E IH]; constructor; [|exact IH].
    repeat split; congruence. }
  pose proof (write_types_same (k_unusable (mk_conf m)) cat cat0 (map ir_src (mk_rows m))
    (firstn n (k_types (mk_conf m))) F' (firstn n (k_types (mk_conf m)))
    (reserve (k_types (mk_conf m)) total junk) (reserve (firstn n (k_types (mk_conf m))) total junk)
    (incl_refl _)) as W.
  assert (P : forall t, In t (firstn n (k_types (mk_conf m))) ->
    ext_find (reserve (k_types (mk_conf m)) total junk) t = ext_find (reserve (firstn n (k_types (mk_conf m))) total junk) t).
  { intros t Ht. rewrite !find_reserve; [reflexivity|exact Ht|apply (incl_firstn n); exact Ht]. }
  specialize (W P). clear P.
  assert (Q : write (first_types m n) junk pjunk =
    let* ext := write_types (k_unusable (mk_conf m)) cat0 (map ir_src (mk_rows m)) (firstn n (k_types (mk_conf m)))
                  (reserve (firstn n (k_types (mk_conf m))) total junk) in
    Ok (mkMaker (mk_conf (first_types m n)) (mk_rows m) None cat0,
        mkMeds cat0 (k_number_col (mk_conf m)) PsfNone (map ir_info (mk_rows m)) ext None)).
  { unfold write, full_layout, first_types.
    cbn [mk_conf mk_rows mk_psf mk_cat k_l k_p k_unusable k_types k_joblib k_njob k_number_col].
    rewrite B. cbn [bind fst snd]. unfold write_data.
    cbn [mk_conf mk_rows mk_psf mk_cat k_l k_p k_unusable k_types k_joblib k_njob k_number_col].
    destruct (write_types _ cat0 _ _ _); reflexivity. }
  rewrite Q. clear Q.
  destruct (write_types _ cat _ _ _) as [x|e], (write_types _ cat0 _ _ _) as [y|e']; cbn [bind]; try contradiction.
  - eexists _, _. split; [reflexivity|]. exact W.
  - congruence.
Qed.

Theorem left_behind m pi junk pjunk path d e cat total tp :
  NoDup (k_types (mk_conf m)) ->
  full_layout (mk_conf m) (mk_rows m) (mk_psf m) (mk_cat m) = Ok (cat, total, tp) ->
  snd (write_on_disk m pi junk pjunk path d) = Some e ->
  exists f n m' g, fst (write_on_disk m pi junk pjunk path d) path = Some (f, false) /\
    m_cat f = cat /\ m_info f = map ir_info (mk_rows m) /\ map fst (m_ext f) = k_types (mk_conf m) /\
    write (first_types m n) junk pjunk = Ok (m', g) /\
    (forall t, In t (firstn n (k_types (mk_conf m))) -> ext_find (m_ext f) t = ext_find (m_ext g) t) /\
    (forall t, In t (skipn (S n) (k_types (mk_conf m))) -> ext_find (m_ext f) t = Some (map (junk t) (zrange total))) /\
    ((n < length (k_types (mk_conf m)))%nat /\ write (first_types m (S n)) junk pjunk = Err e \/
     n = length (k_types (mk_conf m)) /\ mk_psf m <> None).
Proof.
  intros ND L H.
  assert (PP : forall f, put d path f path = Some f) by (intros; unfold put; rewrite String.eqb_refl; reflexivity).
  revert H. unfold write_on_disk. rewrite L. unfold write_data_on_disk. cbv zeta.
  set (k := mk_conf m) in *.
  assert (DOM : forall ts ext r, types_on_disk (k_unusable k) cat (map ir_src (mk_rows m)) ts ext = r ->
    map fst (fst r) = map fst ext).
  { induction ts as [|t ts IH]; intros ext r <-; [reflexivity|]. unfold types_on_disk. cbn [loop].
    destruct (ext_find ext t) as [hdu|]; [|reflexivity].
    destruct (cutouts_on_disk _ _ _ _ _) as [h [e'|]]; [apply ext_set_fst|].
    etransitivity; [apply (IH _ _ eq_refl)|apply ext_set_fst]. }
  assert (RF : map fst (reserve (k_types k) total junk) = k_types k).
  { unfold reserve. rewrite map_map. apply map_id. }
  destruct (types_on_disk _ _ _ _ _) as [ext [e'|]] eqn:T; cbn [fst snd].
  - intros H. injection H as ->. rewrite PP.
    pose proof (DOM _ _ _ T) as D. cbn [fst] in D. rewrite RF in D.
    destruct (types_left _ _ _ _ _ _ _ T) as (n & t & ext1 & N & W1 & W2 & O).
    pose proof (first_write m cat total tp junk pjunk n L) as G. fold k in G. rewrite W1 in G.
    destruct G as (m' & g & G1 & G2).
    pose proof (first_write m cat total tp junk pjunk (S n) L) as G3. fold k in G3. rewrite W2 in G3.
    assert (SP : k_types k = firstn n (k_types k) ++ t :: skipn (S n) (k_types k)).
    { clear -N. revert n N. generalize (k_types k). induction l as [|x l IH]; intros [|n] N; try discriminate.
      - injection N as ->. reflexivity.
      - cbn [firstn skipn app]. f_equal. apply IH. exact N. }
    rewrite SP in ND. pose proof (NoDup_remove_2 _ _ _ ND) as NI.
    eexists _, n, m', g. split; [reflexivity|]. cbn [m_cat m_info m_ext].
    split; [reflexivity|]. split; [reflexivity|]. split; [exact D|]. split; [exact G1|].
    split.
    { intros t' Ht'. rewrite O; [apply G2; exact Ht'|]. intros ->. apply NI. apply in_or_app. auto. }
    split.
    { intros t' Ht'. rewrite O by (intros ->; apply NI; apply in_or_app; auto).
      rewrite (write_types_other _ _ _ _ _ _ _ W1).
      - apply find_reserve. rewrite SP. apply in_or_app. right. right. exact Ht'.
      - intros I. apply NoDup_remove_1 in ND. 
        clear -ND I Ht'. revert ND I Ht'. generalize (firstn n (k_types k)) (skipn (S n) (k_types k)).
        induction l as [|x l IH]; intros l2 ND I H; [destruct I|]. cbn [app] in ND. inversion ND; subst.
        destruct I as [->|I]; [apply H2; apply in_or_app; auto|eapply IH; eassumption]. }
    left. split; [apply nth_error_Some; rewrite N; discriminate|exact G3].
  - pose proof (DOM _ _ _ T) as D. cbn [fst] in D. rewrite RF in D.
    pose proof (types_agrees (k_unusable k) cat (map ir_src (mk_rows m)) (k_types k) (reserve (k_types k) total junk)) as A.
    rewrite T in A. destruct (write_types _ _ _ _ _) as [x|x] eqn:W; cbn [agrees snd] in A; [|discriminate].
    injection A as <-.
    pose proof (first_write m cat total tp junk pjunk (length (k_types k)) L) as G. fold k in G.
    rewrite firstn_all, W in G. destruct G as (m' & g & G1 & G2).
    destruct (mk_psf m) as [ps|] eqn:EP; [|discriminate].
    destruct (if k_joblib k then _ else _) as [h [e'|]]; cbn [snd fst]; [|discriminate].
    intros _. rewrite PP. eexists _, _, m', g. split; [reflexivity|]. cbn [m_cat m_info m_ext].
    split; [reflexivity|]. split; [reflexivity|]. split; [exact D|]. split; [exact G1|].
    split; [rewrite firstn_all; exact G2|]. split; [rewrite skipn_all2 by lia; intros t []|].
    right. split; [reflexivity|discriminate].
Qed.
