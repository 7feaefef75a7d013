(** The two PSF writers for PSF objects that change while they render. *)
From Coq Require Import Lia ZifyBool ZifyNat String.
From Verif Require Import Base BaseLemmas Img ImgLemmas Types BoundsM Reader MakerLayout MakerWrite MakerFile
  StartLemmas WriteLemmas FileLemmas PsfLemmas Typed PsfTy PsfState SpecPsfState.
Open Scope Z_scope.

Definition putk (h : list fl) (ka : (obj * Z * slot) * arr) : res (list fl) := put_typed (k_slot (fst ka)) (snd ka) h.

(** * Writing the output of a job *)

Lemma put_loop_typed ks : forall pre outs hdu, length outs = length ks ->
  (let* x := foldM (fun (x : list fl * Z) (k : obj * Z * slot) =>
      let* a := py_index (pre ++ outs) (snd x) in
      let* hdu' := put_typed (k_slot k) a (fst x) in Ok (hdu', snd x + 1)) ks (hdu, zlen pre) in
   Ok (fst x)) = foldM putk (combine ks outs) hdu.
Proof.
  induction ks as [|k ks IH]; intros pre outs hdu HL; [reflexivity|].
  destruct outs as [|im outs]; [discriminate|]. cbn [foldM combine fst snd].
  rewrite py_index_nonneg by (unfold zlen; lia). unfold zlen at 1. rewrite zget_nat, nth_app_mid. cbn [bind].
  unfold putk at 1. cbn [fst snd].
  destruct (put_typed (k_slot k) im hdu) as [h|e]; cbn [bind]; [|reflexivity].
  specialize (IH (pre ++ [im]) outs h). rewrite zlen_app in IH.
  rewrite <- app_assoc in IH. cbn [app] in IH. apply IH. simpl in HL. lia.
Qed.

Lemma write_job_flat objs outs hdu : Forall ncut_ok objs -> length outs = length (cat_keys objs) ->
  write_job_typed objs outs hdu = foldM putk (combine (cat_keys objs) outs) hdu.
Proof.
  intros Hn HL. unfold write_job_typed.
  rewrite (foldM_cat_keys (fun (x : list fl * Z) o _ s => let* a := py_index outs (snd x) in
        let* hdu' := put_typed s a (fst x) in Ok (hdu', snd x + 1))) by exact Hn.
  apply (put_loop_typed (cat_keys objs) []). exact HL.
Qed.

Lemma combine_app2 {A B} (a b : list A) (x y : list B) : length a = length x -> combine (a ++ b) (x ++ y) = combine a x ++ combine b y.
Proof. revert x; induction a as [|u a IH]; intros [|v x] H; cbn in *; try discriminate; [reflexivity|]. f_equal. apply IH. lia. Qed.

Section Lem.
  Context {St : Type}.
  Variables (c : lconf) (pc : pconf) (psfs : list (spsf St)).
  Definition ren (k : obj * Z * slot) (st : St) := render_state c pc psfs (k_obj k) (k_slot k) st.
  Definition now (r : (St -> arr) * St) : arr := fst r (snd r).

  (** The calls for some cutouts, one after the other. *)
  Fixpoint calls (ks : list (obj * Z * slot)) (st : St) : res (list ((St -> arr) * St) * St) :=
    match ks with
    | [] => Ok ([], st)
    | k :: ks' => let* r := ren k st in let* x := calls ks' (snd r) in Ok (r :: fst x, snd x)
    end.

  Lemma calls_app a b st : calls (a ++ b) st = let* x := calls a st in let* y := calls b (snd x) in Ok (fst x ++ fst y, snd y).
  Proof.
    revert st. induction a as [|k a IH]; intros st; cbn [app calls bind fst snd].
    - destruct (calls b st) as [[l s]|e]; reflexivity.
    - destruct (ren k st) as [r|e]; cbn [bind]; [|reflexivity]. rewrite IH.
      destruct (calls a (snd r)) as [[l s]|e]; cbn [bind fst snd]; [|reflexivity].
      destruct (calls b s) as [[l' s']|e]; reflexivity.
  Qed.

  Lemma calls_length ks : forall st l st', calls ks st = Ok (l, st') -> length l = length ks.
  Proof.
    induction ks as [|k ks IH]; intros st l st' H; cbn [calls] in H; [injection H as <- <-; reflexivity|].
    apply bind_ok in H. destruct H as (r & _ & H). apply bind_ok in H. destruct H as ([l' s'] & H & E). cbn [fst snd] in E.
    injection E as <- <-. cbn [length]. f_equal. eapply IH; exact H.
  Qed.

  Lemma serial_calls cat st hdu h : Forall ncut_ok cat ->
    (serial_state c pc psfs cat st hdu = Ok h <->
     exists l st', calls (cat_keys cat) st = Ok (l, st') /\ foldM putk (combine (cat_keys cat) (map now l)) hdu = Ok h).
  Proof.
    intros Hn. unfold serial_state.
    rewrite (foldM_cat_keys (fun (x : list fl * St) o _ s => let* r := render_state c pc psfs o s (snd x) in
        let* hdu' := put_typed s (fst r (snd r)) (fst x) in Ok (hdu', snd r))) by exact Hn.
    generalize (cat_keys cat) as ks. intros ks. clear Hn. revert st hdu.
    induction ks as [|k ks IH]; intros st hdu; cbn [foldM calls].
    - cbn [bind fst]. split; [intros H; exists [], st; split; [reflexivity|exact H]|].
      intros (l & st' & E & H). injection E as <- <-. exact H.
    - cbn [fst snd]. fold (ren k st). destruct (ren k st) as [r|e] eqn:Er; cbn [bind]; [|split; [discriminate|intros (l & st' & E & _); discriminate]].
      fold (now r). split.
      + intros H. destruct (put_typed (k_slot k) (now r) hdu) as [h1|e] eqn:Ep; [|discriminate]. cbn [bind] in H. apply IH in H.
        destruct H as (l & st' & E & H). rewrite E. cbn [bind fst snd]. eexists _, _. split; [reflexivity|].
        cbn [map combine foldM]. unfold putk at 1. cbn [fst snd]. rewrite Ep. exact H.
      + intros (l & st' & E & H). apply bind_ok in E. destruct E as ([l' s'] & E & E'). cbn [fst snd] in E'. injection E' as <- <-.
        cbn [map combine foldM] in H. unfold putk at 1 in H. cbn [fst snd] in H.
        destruct (put_typed (k_slot k) (now r) hdu) as [h1|e] eqn:Ep; [|discriminate]. cbn [bind] in *. apply IH. eauto.
  Qed.

  Lemma job_calls objs st : Forall ncut_ok objs ->
    job_state c pc psfs objs st = let* x := calls (cat_keys objs) st in Ok (map (fun r => fst r (snd x)) (fst x), snd x).
  Proof.
    intros Hn. unfold job_state.
    rewrite (foldM_cat_keys (fun (x : list (St -> arr) * St) o _ s => let* r := render_state c pc psfs o s (snd x) in
        Ok (fst x ++ [fst r], snd r))) by exact Hn.
    assert (G : forall ks acc st, foldM (fun (x : list (St -> arr) * St) k => let* r := render_state c pc psfs (k_obj k) (k_slot k) (snd x) in
        Ok (fst x ++ [fst r], snd r)) ks (acc, st) = let* x := calls ks st in Ok (acc ++ map fst (fst x), snd x)).
    { clear. induction ks as [|k ks IH]; intros acc st; cbn [foldM calls bind fst snd].
      - cbn [map]. rewrite app_nil_r. reflexivity.
      - fold (ren k st). destruct (ren k st) as [r|e]; cbn [bind]; [|reflexivity]. rewrite IH.
        destruct (calls ks (snd r)) as [[l s]|e]; cbn [bind fst snd map]; [|reflexivity].
        rewrite <- app_assoc. reflexivity. }
    rewrite G. destruct (calls (cat_keys objs) st) as [[l s]|e]; cbn [bind fst snd app]; [|reflexivity].
    rewrite map_map. reflexivity.
  Qed.

  Variable st0 : St.
  Hypothesis OWN : own_arrays psfs st0.

  Lemma ren_in k st r : ren k st = Ok r -> exists p, In p psfs /\
    sp_rec p st (s_orow (k_slot k)) (s_ocol (k_slot k)) (psf_color_arg c pc (s_file (k_slot k)) (k_obj k)) = Ok r.
  Proof.
    unfold ren, render_state. intros H. apply bind_ok in H. destruct H as (p & Hp & H). exists p. split; [|exact H].
    unfold py_index in Hp. destruct (zget psfs _) eqn:E in Hp; [|discriminate]. injection Hp as <-. eapply zget_In; exact E.
  Qed.

  Lemma after_trans a b d : after psfs a b -> after psfs b d -> after psfs a d.
  Proof. intros A B. induction B; [exact A|]. eapply after_call; eassumption. Qed.

  Lemma ren_after k st a st' : ren k st = Ok (a, st') -> after psfs st st'.
  Proof. intros H. apply ren_in in H. destruct H as (p & Hp & H). eapply after_call; [apply after_none|exact Hp|exact H]. Qed.

  Lemma calls_own ks : forall st l st', after psfs st0 st -> calls ks st = Ok (l, st') ->
    after psfs st st' /\ map (fun r => fst r st') l = map now l.
  Proof.
    induction ks as [|k ks IH]; intros st l st' A H; cbn [calls] in H.
    - injection H as <- <-. split; [apply after_none|reflexivity].
    - apply bind_ok in H. destruct H as ([a s] & Er & H). apply bind_ok in H. destruct H as ([l' s'] & H & E). cbn [fst snd] in *.
      injection E as <- <-. pose proof (ren_after _ _ _ _ Er) as A1.
      destruct (IH _ _ _ (after_trans _ _ _ A A1) H) as (A2 & M). split; [eapply after_trans; eassumption|].
      cbn [map]. f_equal; [|exact M]. unfold now. cbn [fst snd]. apply ren_in in Er. destruct Er as (p & Hp & Er).
      eapply OWN; eassumption.
  Qed.

  (** * Jobs *)

  (** Memories from which the same things are rendered. *)
  Variable E : St -> St -> Prop.
  Hypothesis E_after : forall a b, E a b -> after psfs st0 a /\ after psfs st0 b.
  Hypothesis E_fwd : forall a b k r, E a b -> ren k a = Ok r -> exists r', ren k b = Ok r' /\ now r' = now r /\ E (snd r) (snd r').
  Hypothesis E_bwd : forall a b k r, E a b -> ren k b = Ok r -> exists r', ren k a = Ok r' /\ now r' = now r /\ E (snd r') (snd r).

  Lemma calls_fwd ks : forall a b l a', E a b -> calls ks a = Ok (l, a') ->
    exists l' b', calls ks b = Ok (l', b') /\ map now l' = map now l /\ E a' b'.
  Proof.
    induction ks as [|k ks IH]; intros a b l a' He H; cbn [calls] in *.
    - injection H as <- <-. exists [], b. split; [reflexivity|]. split; [reflexivity|exact He].
    - apply bind_ok in H. destruct H as (r & Er & H). apply bind_ok in H. destruct H as ([l1 s1] & H & Eq). cbn [fst snd] in Eq.
      injection Eq as <- <-. destruct (E_fwd _ _ _ _ He Er) as (r' & Er' & N & He'). rewrite Er'. cbn [bind].
      destruct (IH _ _ _ _ He' H) as (l' & b' & H' & M & He2). rewrite H'. cbn [bind fst snd]. eexists _, _. split; [reflexivity|].
      split; [cbn [map]; f_equal; assumption|exact He2].
  Qed.
  Lemma calls_bwd ks : forall a b l b', E a b -> calls ks b = Ok (l, b') ->
    exists l' a', calls ks a = Ok (l', a') /\ map now l' = map now l /\ E a' b'.
  Proof.
    induction ks as [|k ks IH]; intros a b l b' He H; cbn [calls] in *.
    - injection H as <- <-. exists [], a. split; [reflexivity|]. split; [reflexivity|exact He].
    - apply bind_ok in H. destruct H as (r & Er & H). apply bind_ok in H. destruct H as ([l1 s1] & H & Eq). cbn [fst snd] in Eq.
      injection Eq as <- <-. destruct (E_bwd _ _ _ _ He Er) as (r' & Er' & N & He'). rewrite Er'. cbn [bind].
      destruct (IH _ _ _ _ He' H) as (l' & a' & H' & M & He2). rewrite H'. cbn [bind fst snd]. eexists _, _. split; [reflexivity|].
      split; [cbn [map]; f_equal; assumption|exact He2].
  Qed.

  Variables (cat : list obj) (n : Z) (fresh : Z -> bool).
  Hypothesis NC : Forall ncut_ok cat.
  Definition kj (j : Z) : list (obj * Z * slot) := cat_keys (job_objs cat n j).
  Definition jstep (x : list (list arr) * St) (job : Z) : res (list (list arr) * St) :=
    let* r := job_state c pc psfs (job_objs cat n job) (if fresh job then st0 else snd x) in Ok (fst x ++ [fst r], snd r).

  Lemma job_ncut j : Forall ncut_ok (job_objs cat n j).
  Proof.
    apply Forall_forall. intros o Ho. rewrite Forall_forall in NC. apply NC.
    unfold job_objs in Ho. eapply firstn_skipn_In; exact Ho.
  Qed.

  Definition shapes (js : list Z) (ls : list (list arr)) : Prop := Forall2 (fun j l => length l = length (kj j)) js ls.

  Lemma jobs_fwd js : (forall j a b, In j js -> E a b -> E (if fresh j then st0 else a) b) ->
    forall outs a b outs' a', E a b -> foldM jstep js (outs, a) = Ok (outs', a') ->
    exists ls l b', outs' = outs ++ ls /\ shapes js ls /\ calls (flat_map kj js) b = Ok (l, b') /\ map now l = concat ls.
  Proof.
    induction js as [|j js IH]; intros Hf outs a b outs' a' He H; cbn [foldM] in H.
    - injection H as <- <-. exists [], [], b. rewrite app_nil_r. repeat split. constructor.
    - apply bind_ok in H. destruct H as ([o1 a1] & H1 & H2). unfold jstep in H1. cbn [fst snd] in H1.
      rewrite job_calls in H1 by apply job_ncut. apply bind_ok in H1. destruct H1 as ([o2 a2] & H1 & E1). cbn [fst snd] in E1.
      apply bind_ok in H1. destruct H1 as ([l a3] & H1 & E3). cbn [fst snd] in E3. injection E3 as <- <-. injection E1 as <- <-.
      pose proof (Hf j a b (or_introl eq_refl) He) as He1.
      destruct (calls_own _ _ _ _ (proj1 (E_after _ _ He1)) H1) as (_ & M). rewrite M in H2.
      destruct (calls_fwd _ _ _ _ _ He1 H1) as (l' & b' & H1' & M' & He2).
      destruct (IH (fun j' a b Hj => Hf j' a b (or_intror Hj)) _ _ _ _ _ He2 H2) as (ls & l2 & b2 & -> & Sh & C & Mc).
      exists (map now l :: ls), (l' ++ l2), b2. split; [rewrite <- app_assoc; reflexivity|].
      split; [constructor; [rewrite map_length; eapply calls_length; exact H1|exact Sh]|].
      split; [cbn [flat_map]; rewrite calls_app; unfold kj at 1; rewrite H1'; cbn [bind fst snd]; rewrite C; reflexivity|].
      rewrite map_app, M', Mc. reflexivity.
  Qed.

  Lemma jobs_bwd js : (forall j a b, In j js -> E a b -> E (if fresh j then st0 else a) b) ->
    forall outs a b l b', E a b -> calls (flat_map kj js) b = Ok (l, b') ->
    exists ls a', foldM jstep js (outs, a) = Ok (outs ++ ls, a') /\ shapes js ls /\ concat ls = map now l.
  Proof.
    induction js as [|j js IH]; intros Hf outs a b l b' He H; cbn [flat_map] in H.
    - cbn [calls] in H. injection H as <- <-. exists [], a. rewrite app_nil_r. repeat split. constructor.
    - rewrite calls_app in H. apply bind_ok in H. destruct H as ([l1 b1] & H1 & H). apply bind_ok in H. destruct H as ([l2 b2] & H2 & Eq).
      cbn [fst snd] in *. injection Eq as <- <-.
      pose proof (Hf j a b (or_introl eq_refl) He) as He1.
      destruct (calls_bwd _ _ _ _ _ He1 H1) as (l1' & a1 & H1' & M & He2).
      destruct (calls_own _ _ _ _ (proj1 (E_after _ _ He1)) H1') as (_ & MO).
      destruct (IH (fun j' a b Hj => Hf j' a b (or_intror Hj)) (outs ++ [map now l1']) _ _ _ _ He2 H2) as (ls & a' & F & Sh & Cc).
      exists (map now l1' :: ls), a'. split.
      + cbn [foldM]. unfold jstep at 1. cbn [fst snd]. rewrite job_calls by apply job_ncut. unfold kj in H1'. rewrite H1'. cbn [bind fst snd].
        rewrite MO. rewrite F. rewrite <- app_assoc. reflexivity.
      + split; [constructor; [rewrite map_length; eapply calls_length; exact H1'|exact Sh]|].
        cbn [concat]. rewrite map_app, Cc, M. reflexivity.
  Qed.

  Lemma write_jobs js : forall ls hdu, shapes js ls ->
    foldM (fun hdu jo => write_job_typed (job_objs cat n (fst jo)) (snd jo) hdu) (combine js ls) hdu =
    foldM putk (combine (flat_map kj js) (concat ls)) hdu.
  Proof.
    intros ls hdu Sh. revert hdu. induction Sh as [|j l js ls Hl Sh IH]; intros hdu; [reflexivity|].
    cbn [combine foldM fst snd flat_map concat]. rewrite combine_app2 by (symmetry; exact Hl). rewrite foldM_app.
    rewrite write_job_flat by (apply job_ncut || exact Hl). apply bind_ext. intros h _. apply IH.
  Qed.

  Hypothesis Hn : 1 <= n.
  Hypothesis E0 : E st0 st0.
  Hypothesis Ef : forall j a b, 0 < j -> E a b -> E (if fresh j then st0 else a) b.

  Lemma joblib_calls hdu h : joblib_state n fresh c pc psfs cat st0 hdu = Ok h <->
    exists l st', calls (cat_keys cat) st0 = Ok (l, st') /\ foldM putk (combine (cat_keys cat) (map now l)) hdu = Ok h.
  Proof.
    unfold joblib_state. cbv zeta. fold jstep.
    set (nj := if zlen cat / n * n <? zlen cat then zlen cat / n + 1 else zlen cat / n).
    assert (Hnj : 0 <= nj /\ zlen cat <= nj * n).
    { pose proof (Z.div_mod (zlen cat) n ltac:(lia)). pose proof (Z.mod_pos_bound (zlen cat) n ltac:(lia)).
      pose proof (zlen_nonneg cat). assert (0 <= zlen cat / n) by (apply Z.div_pos; lia).
      unfold nj. dif Ed; nia. }
    assert (AK : flat_map kj (zrange nj) = cat_keys cat).
    { pose proof (chunks_all cat n nj ltac:(lia) ltac:(lia) ltac:(lia)) as CA. apply (f_equal cat_keys) in CA. rewrite <- CA.
      clear. unfold kj, cat_keys, job_objs, chunk. cbv zeta. induction (zrange nj) as [|j js IH]; [reflexivity|]. cbn [flat_map]. rewrite flat_map_app, IH. reflexivity. }
    assert (Z0 : zrange nj = [] \/ exists js, zrange nj = 0 :: js /\ forall j, In j js -> 0 < j).
    { destruct (zrange nj) as [|z js] eqn:Ez; [left; reflexivity|right]. exists js.
      unfold zrange in Ez. destruct (Z.to_nat nj) as [|m]; [discriminate|]. cbn [seq map] in Ez. injection Ez as <- <-. split; [reflexivity|].
      intros j Hj. apply in_map_iff in Hj. destruct Hj as (x & <- & Hx). apply in_seq in Hx. lia. }
    assert (FS : forall js, (forall j, In j js -> 0 < j) -> forall j a b, In j js -> E a b -> E (if fresh j then st0 else a) b).
    { intros js P j a b Hj He. apply Ef; [apply P; exact Hj|exact He]. }
    destruct Z0 as [Z0|(js & Z0 & P)].
    - rewrite Z0 in *. cbn [flat_map] in AK. rewrite <- AK. cbn [foldM combine bind fst calls]. split.
      + intros H. exists [], st0. split; [reflexivity|exact H].
      + intros (l & st' & Eq & H). injection Eq as <- <-. exact H.
    - rewrite Z0 in *.
      assert (R : foldM jstep (0 :: js) ([], st0) = let* x := calls (kj 0) st0 in foldM jstep js ([map (fun r => fst r (snd x)) (fst x)], snd x)).
      { cbn [foldM]. unfold jstep at 1. cbn [fst snd]. replace (if fresh 0 then st0 else st0) with st0 by (destruct (fresh 0); reflexivity).
        rewrite job_calls by apply job_ncut. unfold kj. destruct (calls _ st0) as [[l s]|e]; reflexivity. }
      rewrite R. rewrite <- AK. cbn [flat_map]. rewrite calls_app. split.
      + intros H. apply bind_ok in H. destruct H as ([outs s] & H & W). apply bind_ok in H. destruct H as ([l s1] & H1 & H). cbn [fst snd] in *.
        destruct (calls_own _ _ _ _ (proj1 (E_after _ _ E0)) H1) as (_ & M). rewrite M in H.
        destruct (calls_fwd _ _ _ _ _ E0 H1) as (l1 & b1 & H1' & M1 & He1).
        assert (l1 = l /\ b1 = s1) as (-> & ->) by (split; congruence).
        destruct (jobs_fwd js (FS js P) _ _ _ _ _ He1 H) as (ls & l2 & b2 & -> & Sh & C & Mc).
        exists (l ++ l2), b2. rewrite H1. cbn [bind fst snd]. rewrite C. cbn [bind fst snd]. split; [reflexivity|].
        rewrite map_app, Mc. rewrite (write_jobs (0 :: js) (map now l :: ls)) in W; [exact W|].
        constructor; [rewrite map_length; eapply calls_length; exact H1|exact Sh].
      + intros (lt & st' & H & W). apply bind_ok in H. destruct H as ([l s1] & H1 & H). apply bind_ok in H. destruct H as ([l2 b2] & H2 & Eq).
        cbn [fst snd] in *. injection Eq as <- <-. rewrite H1. cbn [bind fst snd].
        destruct (calls_own _ _ _ _ (proj1 (E_after _ _ E0)) H1) as (_ & M). rewrite M.
        destruct (calls_fwd _ _ _ _ _ E0 H1) as (l1 & b1 & H1' & M1 & He1).
        assert (l1 = l /\ b1 = s1) as (-> & ->) by (split; congruence).
        destruct (jobs_bwd js (FS js P) [map now l] _ _ _ _ He1 H2) as (ls & a' & F & Sh & Cc). rewrite F. cbn [bind fst].
        rewrite (write_jobs (0 :: js) (map now l :: ls)); [|constructor; [rewrite map_length; eapply calls_length; exact H1|exact Sh]].
        cbn [concat flat_map]. rewrite Cc, <- map_app. exact W.
  Qed.
End Lem.
