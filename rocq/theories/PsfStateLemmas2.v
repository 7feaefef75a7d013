(** Files made with PSF objects that change while they render. *)
From Coq Require Import Lia ZifyBool ZifyNat String.
From Verif Require Import Base BaseLemmas Img ImgLemmas Types BoundsM Reader MakerLayout MakerWrite MakerFile
  StartLemmas LayoutLemmas WriteLemmas FileLemmas PsfLemmas Typed PsfTy PsfState SpecPsfState PsfStateLemmas.
Open Scope Z_scope.

Lemma py_index_In {A} (l : list A) i a : py_index l i = Ok a -> In a l.
Proof. unfold py_index. set (j := if i <? 0 then _ else _). destruct (zget l j) eqn:E; [|discriminate]. intros H. injection H as <-. eapply zget_In; exact E. Qed.

Lemma modify_length {A} (l : list A) i g l' : modify l i g = Ok l' -> length l' = length l.
Proof.
  unfold modify. intros H. destruct (nth_error l i) as [x|] eqn:E; [|discriminate]. injection H as <-.
  rewrite upd_length. reflexivity.
Qed.

Section Writers.
  Context {St : Type}.
  Variables (c : lconf) (pc : pconf) (psfs : list (spsf St)) (st0 : St).

  Lemma ren_repeat k a b r : repeatable psfs st0 -> after psfs st0 a -> after psfs st0 b -> ren c pc psfs k a = Ok r ->
    exists r', ren c pc psfs k b = Ok r' /\ now r' = now r /\ after psfs st0 (snd r) /\ after psfs st0 (snd r').
  Proof.
    intros RE Ha Hb H. unfold ren, render_state in *. apply bind_ok in H. destruct H as (p & Hi & H). rewrite Hi. cbn [bind].
    pose proof (py_index_In _ _ _ Hi) as Hp. destruct r as [f s].
    destruct (RE _ _ _ _ _ _ _ _ Ha Hb Hp H) as (f' & s' & G & Eq). rewrite G. exists (f', s'). split; [reflexivity|]. split; [exact Eq|].
    cbn [snd]. split; [exact (after_call _ _ _ _ _ _ _ _ _ Ha Hp H)|exact (after_call _ _ _ _ _ _ _ _ _ Hb Hp G)].
  Qed.

  Variables (cat : list obj) (n : Z) (fresh : Z -> bool).
  Hypothesis OWN : own_arrays psfs st0.
  Hypothesis NC : Forall ncut_ok cat.
  Hypothesis Hn : 1 <= n.

  Lemma joblib_repeatable hdu h : repeatable psfs st0 ->
    (joblib_state n fresh c pc psfs cat st0 hdu = Ok h <-> serial_state c pc psfs cat st0 hdu = Ok h).
  Proof.
    intros RE. rewrite (serial_calls c pc psfs cat st0 hdu h NC).
    pose proof (after_none psfs st0) as A0.
    apply (joblib_calls c pc psfs st0 OWN (fun a b => after psfs st0 a /\ after psfs st0 b)); try assumption; try tauto.
    - intros a b k r (Ha & Hb) H. destruct (ren_repeat k a b r RE Ha Hb H) as (r' & H1 & H2 & H3 & H4). eauto.
    - intros a b k r (Ha & Hb) H. destruct (ren_repeat k b a r RE Hb Ha H) as (r' & H1 & H2 & H3 & H4). eauto.
    - intros j a b _ (Ha & Hb). destruct (fresh j); tauto.
  Qed.

  Lemma joblib_one_group hdu h : one_group fresh ->
    (joblib_state n fresh c pc psfs cat st0 hdu = Ok h <-> serial_state c pc psfs cat st0 hdu = Ok h).
  Proof.
    intros OG. rewrite (serial_calls c pc psfs cat st0 hdu h NC).
    pose proof (after_none psfs st0) as A0.
    assert (RA : forall a k r, after psfs st0 a -> ren c pc psfs k a = Ok r -> after psfs st0 (snd r)).
    { intros a k [f s] Ha H. eapply after_trans; [exact Ha|]. eapply ren_after; exact H. }
    apply (joblib_calls c pc psfs st0 OWN (fun a b => a = b /\ after psfs st0 b)); try assumption; try tauto.
    - intros a b (-> & H). tauto.
    - intros a b k r (-> & Hb) H. exists r. eauto.
    - intros a b k r (-> & Hb) H. exists r. eauto.
    - intros j a b Hj H. rewrite OG by exact Hj. exact H.
  Qed.

  Lemma joblib_one_job hdu : zlen cat <= n ->
    joblib_state n fresh c pc psfs cat st0 hdu = joblib_state n (fun _ => false) c pc psfs cat st0 hdu.
  Proof.
    intros HL. unfold joblib_state. cbv zeta.
    set (nj := if zlen cat / n * n <? zlen cat then zlen cat / n + 1 else zlen cat / n).
    assert (Hnj : nj = 0 \/ nj = 1).
    { pose proof (zlen_nonneg cat). destruct (Z.eq_dec (zlen cat) n) as [E|E].
      - assert (zlen cat / n = 1) by (rewrite E; apply Z.div_same; lia). unfold nj. dif Ed; lia.
      - assert (zlen cat / n = 0) by (apply Z.div_small; lia). unfold nj. dif Ed; lia. }
    clearbody nj. destruct Hnj as [->| ->]; [reflexivity|]. change (zrange 1) with [0]. cbn [foldM fst snd].
    destruct (fresh 0); reflexivity.
  Qed.

  (** * The layout *)

  Lemma layout_cuts o is : forall sl start total st sl' start' total' st',
    foldM (layout_cut_state c pc psfs o) is (sl, start, total, st) = Ok (sl', start', total', st') ->
    length sl' = length sl /\ after psfs st st'.
  Proof.
    induction is as [|i is IH]; intros sl start total st sl' start' total' st' H; cbn [foldM] in H.
    - injection H as <- _ _ <-. split; [reflexivity|apply after_none].
    - apply bind_ok in H. destruct H as ([[[sl1 start1] total1] st1] & H1 & H2). apply IH in H2. destruct H2 as (L & A).
      unfold layout_cut_state in H1. apply bind_ok in H1. destruct H1 as (s & _ & H1). apply bind_ok in H1. destruct H1 as (p & Hp & H1).
      apply py_index_In in Hp. apply bind_ok in H1. destruct H1 as ([sh st2] & Hs & H1). apply bind_ok in H1. destruct H1 as (sl2 & Hm & H1).
      injection H1 as <- _ _ <-. apply modify_length in Hm. split; [congruence|]. eapply after_trans; [|exact A].
      unfold shape_state in Hs. destruct (sp_rec_shape p).
      + injection Hs as _ <-. apply after_none.
      + apply bind_ok in Hs. destruct Hs as ([f s2] & Hr & Hs). cbn [fst snd] in Hs. injection Hs as _ <-.
        eapply after_call; [apply after_none|exact Hp|exact Hr].
  Qed.
End Writers.

Lemma layout_state_ok {St} c pc (psfs : list (spsf St)) cat : forall start total st cat' start' total' st', Forall ncut_ok cat ->
  layout_state c pc psfs cat start total st = Ok (cat', start', total', st') ->
  Forall ncut_ok cat' /\ after psfs st st' /\ zlen cat' = zlen cat.
Proof.
  induction cat as [|o cat IH]; intros start total st cat' start' total' st' N H; cbn [layout_state] in H.
  - injection H as <- _ _ <-. split; [constructor|]. split; [apply after_none|reflexivity].
  - inversion N as [|? ? N1 N2]; subst. apply bind_ok in H. destruct H as ([[[sl s1] t1] st1] & H1 & H). apply bind_ok in H.
    destruct H as ([[[cat1 s2] t2] st2] & H2 & H). injection H as <- _ _ <-.
    apply layout_cuts in H1. destruct H1 as (L & A1). destruct (IH _ _ _ _ _ _ _ N2 H2) as (G1 & G2 & G3).
    split; [constructor; [|exact G1]|split; [eapply after_trans; eassumption|rewrite !zlen_cons, G3; reflexivity]].
    unfold ncut_ok in *. cbn [set_slots o_ncut o_slots]. unfold zlen in *. lia.
Qed.

Lemma own_later {St} (psfs : list (spsf St)) st st' : after psfs st st' -> own_arrays psfs st -> own_arrays psfs st'.
Proof. intros A O st1 p r c col a st2 st3 A1. apply O. eapply after_trans; eassumption. Qed.
Lemma repeatable_later {St} (psfs : list (spsf St)) st st' : after psfs st st' -> repeatable psfs st -> repeatable psfs st'.
Proof. intros A R st1 st2 p r c col a s A1 A2. apply R; eapply after_trans; eassumption. Qed.

(** The common part of the two ways of making a file. *)
Lemma make_state_split {St} k types rows (psfs : list (spsf St)) st input junk pjunk :
  (exists e, forall jl, make_state k jl types rows psfs st input junk pjunk = Err e) \/
  exists cat tp st' ext, Forall ncut_ok cat /\ after psfs st st' /\
    forall jl, make_state k jl types rows psfs st input junk pjunk =
      let* h := match jl with
                | None => serial_state (k_l k) (k_p k) psfs cat st' (map pjunk (zrange tp))
                | Some (n, fresh) => joblib_state n fresh (k_l k) (k_p k) psfs cat st' (map pjunk (zrange tp))
                end in
      Ok (mkPfile (mkMeds cat (k_number_col k) PsfRCCut (map ir_info rows) ext None) h).
Proof.
  unfold make_state, new_maker.
  destruct (set_cutout_types types) as [nm|e]; cbn [bind]; [|left; eauto].
  destruct (mapM _ nm) as [tys|e]; cbn [bind]; [|left; eauto].
  destruct (zlen psfs =? zlen rows); cbn [bind]; [|left; eauto].
  cbn [mk_cat mk_conf k_types].
  destruct (build_layout _ _ _) as [[cat0 total]|e] eqn:EB; cbn [bind fst snd]; [|left; eauto].
  destruct (layout_state _ _ _ _ _ _ _) as [[[[cat s] tp] st']|e] eqn:EL; cbn [bind]; [|left; eauto].
  destruct (write_types _ _ _ _ _) as [ext|e]; cbn [bind]; [|left; eauto].
  right. destruct (build_layout_inv _ _ _ _ _ EB) as (objs & nslots & _ & _ & F & _).
  destruct (layout_state_ok _ _ _ _ _ _ _ _ _ _ _ (laid_out_ncut_ok _ _ _ _ _ F) EL) as (N & A & _).
  exists cat, tp, st', ext. split; [exact N|]. split; [exact A|]. reflexivity.
Qed.

Section Make.
  Context {St : Type}.
  Variables (k : mconf) (types : list string) (rows : list imrow) (psfs : list (spsf St)) (st : St) (input : list obj)
    (junk : ctype -> Z -> Q) (pjunk : Z -> fl).

  Lemma state_repeatable n fresh f : 1 <= n -> own_arrays psfs st -> repeatable psfs st ->
    (make_state k (Some (n, fresh)) types rows psfs st input junk pjunk = Ok f <->
     make_state k None types rows psfs st input junk pjunk = Ok f).
  Proof.
    intros Hn O R. destruct (make_state_split k types rows psfs st input junk pjunk) as [(e & H)|(cat & tp & st' & ext & N & A & H)].
    - rewrite !H. split; discriminate.
    - rewrite !H. clear H. rewrite !bind_ok.
      pose proof (fun h => joblib_repeatable (k_l k) (k_p k) psfs st' cat n fresh (own_later _ _ _ A O) N Hn (map pjunk (zrange tp)) h
        (repeatable_later _ _ _ A R)) as J.
      split; intros (h & H1 & H2); exists h; (split; [apply J; exact H1|exact H2]).
  Qed.

  Lemma state_one_group n fresh f : 1 <= n -> own_arrays psfs st -> one_group fresh \/ zlen (m_cat (pf_meds f)) <= n ->
    (make_state k (Some (n, fresh)) types rows psfs st input junk pjunk = Ok f <->
     make_state k None types rows psfs st input junk pjunk = Ok f).
  Proof.
    intros Hn O G. destruct (make_state_split k types rows psfs st input junk pjunk) as [(e & H)|(cat & tp & st' & ext & N & A & H)].
    - rewrite !H. split; discriminate.
    - rewrite !H. clear H. rewrite !bind_ok.
      pose proof (fun fresh h OG => joblib_one_group (k_l k) (k_p k) psfs st' cat n fresh (own_later _ _ _ A O) N Hn (map pjunk (zrange tp)) h OG) as J.
      split; intros (h & H1 & H2); exists h; (split; [|exact H2]).
      + destruct G as [G|G]; [apply (J fresh h G); exact H1|]. injection H2 as <-. cbn [pf_meds m_cat] in G.
        rewrite joblib_one_job in H1 by assumption. apply (J (fun _ => false)); [intros ? ?; reflexivity|exact H1].
      + destruct G as [G|G]; [apply (J fresh h G); exact H1|]. injection H2 as <-. cbn [pf_meds m_cat] in G.
        rewrite joblib_one_job by assumption. apply (J (fun _ => false)); [intros ? ?; reflexivity|exact H1].
  Qed.
End Make.
