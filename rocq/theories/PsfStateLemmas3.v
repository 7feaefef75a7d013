(** PSF objects whose memory does not show. *)
From Coq Require Import Lia ZifyBool ZifyNat String.
From Verif Require Import Base BaseLemmas Img ImgLemmas Types BoundsM Reader MakerLayout MakerWrite MakerFile
  StartLemmas LayoutLemmas WriteLemmas FileLemmas PsfLemmas Typed PsfTy PsfState SpecPsfState PsfStateLemmas PsfStateLemmas2.
Open Scope Z_scope.

Section Pure.
  Context {St : Type}.
  Variables (c : lconf) (pc : pconf) (psfs : list (spsf St)) (st0 : St) (qs : list tpsf).
  Hypothesis ACT : Forall2 (acts_as psfs st0) psfs qs.

  (** The same outcome, and a memory reached by calls. *)
  Definition rel {A} (x : res (A * St)) (y : res A) : Prop :=
    match x, y with
    | Ok (a, s), Ok b => a = b /\ after psfs st0 s
    | Err e, Err e' => e = e'
    | _, _ => False
    end.

  Lemma rel_bind {A B} (x : res (A * St)) (y : res A) (f : A * St -> res (B * St)) (g : A -> res B) :
    rel x y -> (forall a s, after psfs st0 s -> rel (f (a, s)) (g a)) -> rel (let* u := x in f u) (let* u := y in g u).
  Proof.
    intros R H. destruct x as [[a s]|e], y as [b|e']; cbn in *; try contradiction; [|congruence].
    destruct R as (-> & A1). apply H. exact A1.
  Qed.
  Lemma rel_same {A B} (y : res A) (f : A -> res (B * St)) (g : A -> res B) :
    (forall a, y = Ok a -> rel (f a) (g a)) -> rel (let* u := y in f u) (let* u := y in g u).
  Proof. intros H. destruct y; cbn; [apply H; reflexivity|reflexivity]. Qed.
  Lemma rel_foldM {A X} (f : A * St -> X -> res (A * St)) (g : A -> X -> res A) xs :
    (forall a s x, after psfs st0 s -> rel (f (a, s) x) (g a x)) ->
    forall a s, after psfs st0 s -> rel (foldM f xs (a, s)) (foldM g xs a).
  Proof.
    intros H. induction xs as [|x xs IH]; intros a s A1; cbn [foldM]; [split; [reflexivity|exact A1]|].
    apply rel_bind; [apply H; exact A1|exact IH].
  Qed.

  Lemma acts_zget i : match zget psfs i, zget qs i with
    | Some p, Some q => In p psfs /\ acts_as psfs st0 p q | None, None => True | _, _ => False end.
  Proof.
    unfold zget. destruct (i <? 0); [exact I|].
    assert (G : forall (ps : list (spsf St)) ts, Forall2 (acts_as psfs st0) ps ts -> forall m, match nth_error ps m, nth_error ts m with
       | Some p, Some q => In p ps /\ acts_as psfs st0 p q | None, None => True | _, _ => False end).
    { induction 1 as [|p q ps ts H F IH]; intros [|m]; cbn [nth_error]; try exact I; [split; [left; reflexivity|exact H]|].
      specialize (IH m). destruct (nth_error ps m), (nth_error ts m); try exact IH. destruct IH; split; [right; assumption|assumption]. }
    apply G. exact ACT.
  Qed.
  Lemma acts_len : zlen psfs = zlen qs.
  Proof.
    unfold zlen. f_equal. assert (G : forall (l : list (spsf St)) ts, Forall2 (acts_as psfs st0) l ts -> length l = length ts).
    { induction 1; cbn [length]; congruence. }
    apply G. exact ACT.
  Qed.

  Lemma acts_index i : (exists p q, py_index psfs i = Ok p /\ py_index qs i = Ok q /\ In p psfs /\ acts_as psfs st0 p q) \/
    (exists e, py_index psfs i = Err e /\ py_index qs i = Err e).
  Proof.
    unfold py_index. rewrite acts_len. set (j := if i <? 0 then _ else _). pose proof (acts_zget j) as G.
    destruct (zget psfs j) as [p|], (zget qs j) as [q|]; try contradiction; [left; exists p, q; tauto|right; eauto].
  Qed.
  Lemma index_shape i q : py_index qs i = Ok q -> py_index (map shape_of qs) i = Ok (shape_of q).
  Proof.
    unfold py_index. rewrite zlen_map, zget_map. set (j := if i <? 0 then _ else _).
    destruct (zget qs j); [|discriminate]. intros H. injection H as <-. reflexivity.
  Qed.
  Lemma index_shape_err i e : py_index qs i = Err e -> py_index (map shape_of qs) i = Err e.
  Proof.
    unfold py_index. rewrite zlen_map, zget_map. set (j := if i <? 0 then _ else _).
    destruct (zget qs j); [discriminate|]. intros H. injection H as <-. reflexivity.
  Qed.

  Lemma rel_layout_cut o a s i : after psfs st0 s -> rel (layout_cut_state c pc psfs o (a, s) i) (psf_layout_cut c pc (map shape_of qs) o a i).
  Proof.
    intros A1. destruct a as [[sl start] total]. unfold layout_cut_state, psf_layout_cut.
    apply rel_same. intros x _. destruct (acts_index (s_file x)) as [(p & q & -> & Hq & Hp & H1 & H2 & H3)|(e & -> & Hq)].
    2:{ rewrite (index_shape_err _ _ Hq). reflexivity. }
    rewrite (index_shape _ _ Hq). cbn [bind].
    assert (SH : exists s', shape_state p s (s_orow x) (s_ocol x) (psf_color_arg c pc (s_file x) o) =
       Ok (psf_shape (shape_of q) (s_orow x) (s_ocol x) (psf_color_arg c pc (s_file x) o), s') /\ after psfs st0 s').
    { unfold shape_state, psf_shape, shape_of. cbn [p_rec_shape p_rec]. rewrite H1. destruct (tp_rec_shape q); [eauto|].
      destruct (H3 s (s_orow x) (s_ocol x) (psf_color_arg c pc (s_file x) o) A1) as (a & s' & E1 & E2). rewrite E1. cbn [bind fst snd]. rewrite E2.
      exists s'. split; [reflexivity|]. eapply after_call; [exact A1|exact Hp|exact E1]. }
    destruct SH as (s' & -> & A2). cbn [bind]. rewrite H2. unfold shape_of at 3 4. cbn [p_center].
    apply rel_same. intros sl' _. split; [reflexivity|exact A2].
  Qed.

  Lemma rel_layout cat : forall start total s, after psfs st0 s ->
    rel (layout_state c pc psfs cat start total s) (psf_layout_loop c pc (map shape_of qs) cat start total).
  Proof.
    induction cat as [|o cat IH]; intros start total s A1; cbn [layout_state psf_layout_loop]; [split; [reflexivity|exact A1]|].
    apply rel_bind; [apply rel_foldM; [intros a s' i A'; apply rel_layout_cut; exact A'|exact A1]|].
    intros [[sl start'] total'] s' A2. apply rel_bind; [apply IH; exact A2|].
    intros [[cat'' start''] total''] s'' A3. split; [reflexivity|exact A3].
  Qed.

  Lemma serial_pure cat s hdu : after psfs st0 s -> serial_state c pc psfs cat s hdu = write_psf_typed c pc qs cat hdu.
  Proof.
    intros A1. unfold serial_state, write_psf_typed.
    match goal with |- bind ?x _ = ?y => assert (R : rel x y) end.
    { apply rel_foldM; [|exact A1]. intros h s1 o A2. apply rel_foldM; [|exact A2]. intros h' s2 i A3.
      apply rel_same. intros x _. cbn [fst snd]. unfold render_state, render_typed.
      destruct (acts_index (s_file x)) as [(p & q & -> & -> & Hp & H1 & H2 & H3)|(e & -> & ->)]; cbn [bind]; [|reflexivity].
      destruct (H3 s2 (s_orow x) (s_ocol x) (psf_color_arg c pc (s_file x) o) A3) as (a & s' & E1 & E2). rewrite E1. cbn [bind fst snd]. rewrite E2.
      destruct (put_typed x _ h'); cbn [bind]; [|reflexivity]. split; [reflexivity|]. eapply after_call; [exact A3|exact Hp|exact E1]. }
    revert R. match goal with |- rel ?x ?y -> _ => destruct x as [[a b]|e], y as [d|e'] end; cbn; try contradiction; intros R; [|congruence].
    destruct R as (-> & _). reflexivity.
  Qed.
End Pure.

Lemma acts_in {St} (psfs : list (spsf St)) st p l ts : Forall2 (acts_as psfs st) l ts -> In p l -> exists q, acts_as psfs st p q.
Proof. induction 1 as [|x y l' ts Hx F' IH]; intros H; [contradiction|]. destruct H as [<-|H]; eauto. Qed.

Lemma acts_repeatable {St} (psfs : list (spsf St)) st qs : Forall2 (acts_as psfs st) psfs qs -> repeatable psfs st.
Proof.
  intros F st1 st2 p r c col a1 st1' A1 A2 Hp H. destruct (acts_in _ _ _ _ _ F Hp) as (q & _ & _ & Q).
  destruct (Q st1 r c col A1) as (x & s & E1 & V1). destruct (Q st2 r c col A2) as (y & s2 & E2 & V2).
  exists y, s2. split; [exact E2|]. rewrite E1 in H. injection H as <- <-. congruence.
Qed.

Section Make.
  Context {St : Type}.
  Variables (k : mconf) (types : list string) (rows : list imrow) (psfs : list (spsf St)) (st : St) (qs : list tpsf) (input : list obj)
    (junk : ctype -> Z -> Q) (pjunk : Z -> fl).
  Hypothesis ACT : Forall2 (acts_as psfs st) psfs qs.

  Lemma state_pure : make_state k None types rows psfs st input junk pjunk = make_psf_typed k types rows qs input junk pjunk.
  Proof.
    unfold make_state, make_psf_typed, new_maker.
    destruct (set_cutout_types types) as [nm|e]; cbn [bind]; [|reflexivity].
    destruct (mapM _ nm) as [tys|e]; cbn [bind]; [|reflexivity].
    rewrite zlen_map, (acts_len psfs st qs ACT).
    destruct (zlen qs =? zlen rows); cbn [bind]; [|reflexivity].
    cbn [mk_cat mk_conf mk_psf k_types k_l k_p]. unfold full_layout, set_psf_layout. cbn [k_l k_p].
    destruct (build_layout _ _ _) as [[cat0 total]|e] eqn:EB; cbn [bind fst snd]; [|reflexivity].
    pose proof (rel_layout (k_l k) (k_p k) psfs st qs ACT cat0 0 0 st (after_none _ _)) as R.
    destruct (layout_state _ _ _ _ _ _ _) as [[[[cat s] tp] st']|e], (psf_layout_loop _ _ _ _ _ _) as [[[cat' s'] tp']|e'];
      cbn in R; try contradiction; cbn [bind]; [|congruence].
    destruct R as (R & A). injection R as <- <- <-. cbn [fst snd].
    destruct (write_types _ _ _ _ _) as [ext|e]; cbn [bind]; [|reflexivity].
    rewrite (serial_pure (k_l k) (k_p k) psfs st qs ACT) by exact A. reflexivity.
  Qed.

  Lemma state_pure_joblib n fresh f : 1 <= n -> own_arrays psfs st ->
    (make_state k (Some (n, fresh)) types rows psfs st input junk pjunk = Ok f <-> make_psf_typed k types rows qs input junk pjunk = Ok f).
  Proof. intros Hn O. rewrite <- state_pure. apply state_repeatable; [exact Hn|exact O|eapply acts_repeatable; exact ACT]. Qed.
End Make.
