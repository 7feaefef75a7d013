(** What the two PSF writers leave. *)
From Coq Require Import Lia ZifyBool ZifyNat String.
From Verif Require Import Base BaseLemmas Img ImgLemmas Types BoundsM Reader MakerLayout MakerWrite MakerFile MakerFail SpecTiles SpecFile
  StartLemmas ReadLemmas WriteLemmas FileLemmas PsfLemmas MakerLemmas2 MakerLemmas3 Typed SpecTyped PsfTy SpecPsfTy PsfTyLemmas PsfTyLemmas2 PsfTyLemmas3
  PsfState SpecPsfState PsfStateLemmas PsfStateLemmas2 PsfFail SpecPsfFail FailLemmas FailLemmas2 PsfFailLemmas PsfFailLemmas2.
Open Scope Z_scope.

Lemma put_loop_disk ks : forall pre outs hdu, length outs = length ks ->
  (let '((h, _), e) := loop (fun (x : list fl * Z) (k : obj * Z * slot) => step x (
      let* a := py_index (pre ++ outs) (snd x) in
      let* hdu' := put_typed (k_slot k) a (fst x) in Ok (hdu', snd x + 1))) ks (hdu, zlen pre) in (h, e)) =
  loop (fun h ka => step h (putk h ka)) (combine ks outs) hdu.
Proof.
  induction ks as [|k ks IH]; intros pre outs hdu HL; [reflexivity|].
  destruct outs as [|im outs]; [discriminate|]. cbn [loop combine fst snd].
  assert (EI : py_index (pre ++ im :: outs) (zlen pre) = Ok im).
  { rewrite py_index_nonneg by (unfold zlen; lia). unfold zlen. rewrite zget_nat, nth_app_mid. reflexivity. }
  rewrite EI. cbn [bind].
  unfold putk at 1. cbn [fst snd].
  destruct (put_typed (k_slot k) im hdu) as [h|e]; cbn [bind step]; [|reflexivity].
  specialize (IH (pre ++ [im]) outs h). rewrite zlen_app in IH.
  rewrite <- app_assoc in IH. cbn [app] in IH. apply IH. simpl in HL. lia.
Qed.

Lemma write_job_disk_flat objs outs hdu : Forall ncut_ok objs -> length outs = length (cat_keys objs) ->
  write_job_disk objs outs hdu = loop (fun h ka => step h (putk h ka)) (combine (cat_keys objs) outs) hdu.
Proof.
  intros Hn HL. unfold write_job_disk.
  rewrite (loop_cat_keys (fun (x : list fl * Z) o s => let* a := py_index outs (snd x) in
        let* hdu' := put_typed s a (fst x) in Ok (hdu', snd x + 1))) by exact Hn.
  apply (put_loop_disk (cat_keys objs) []). exact HL.
Qed.

Lemma map_fst_combine' {A B} (a : list A) : forall b : list B, length a = length b -> map fst (combine a b) = a.
Proof. induction a as [|x a IH]; intros [|y b] L; try discriminate; [reflexivity|]. cbn [combine map fst]. f_equal. apply IH. injection L as L. exact L. Qed.
Lemma map_snd_combine' {A B} (a : list A) : forall b : list B, length a = length b -> map snd (combine a b) = b.
Proof. induction a as [|x a IH]; intros [|y b] L; try discriminate; [reflexivity|]. cbn [combine map snd]. f_equal. apply IH. injection L as L. exact L. Qed.
Lemma app_inj {A} (a : list A) : forall b c d, length a = length b -> a ++ c = b ++ d -> a = b /\ c = d.
Proof.
  induction a as [|x a IH]; intros [|y b] c d L H; try discriminate; [split; [reflexivity|exact H]|].
  cbn [app] in H. injection H as -> H. injection L as L. destruct (IH _ _ _ L H) as (-> & ->). split; reflexivity.
Qed.

Section Calls.
  Context {St : Type}.
  Variables (k : mconf) (psfs : list (spsf St)) (st : St).
  Notation good := (fun kk : obj * Z * slot => 0 <= s_file (k_slot kk) < zlen psfs).
  Notation call := (fun (kk : obj * Z * slot) x => call_for k psfs st (k_obj kk) (k_slot kk) x).

  Lemma ren_call kk st1 : good kk -> after psfs st st1 ->
    call kk (match ren (k_l k) (k_p k) psfs kk st1 with Ok r => Ok (now r) | Err e => Err e end).
  Proof.
    intros G A. unfold ren, render_state. destruct (zget_range_Some psfs _ G) as (p & Hp).
    rewrite (proj2 (py_index_ok_nonneg psfs _ p (proj1 G)) Hp). cbn [bind]. exists p, st1. split; [exact Hp|]. split; [exact A|].
    destruct (sp_rec p st1 _ _ _) as [[a st2]|e]; reflexivity.
  Qed.

  Lemma calls_call ks : forall st1 l st2, after psfs st st1 -> Forall good ks -> calls (k_l k) (k_p k) psfs ks st1 = Ok (l, st2) ->
    Forall2 (fun kk a => call kk (Ok a)) ks (map now l) /\ after psfs st st2.
  Proof.
    induction ks as [|kk ks IH]; intros st1 l st2 A G H; cbn [calls] in H.
    - injection H as <- <-. split; [constructor|exact A].
    - inversion G as [|? ? G1 G2]; subst. apply bind_ok in H. destruct H as ([a s] & Er & H). apply bind_ok in H. destruct H as ([l' s'] & H & E).
      cbn [fst snd] in *. injection E as <- <-. pose proof (ren_call kk st1 G1 A) as C. rewrite Er in C.
      pose proof (after_trans _ _ _ _ A (ren_after _ _ _ _ _ _ _ Er)) as A1.
      destruct (IH _ _ _ A1 G2 H) as (F & A2). split; [|exact A2]. cbn [map]. constructor; [exact C|exact F].
  Qed.

  Lemma calls_err ks : forall st1 e, after psfs st st1 -> Forall good ks -> calls (k_l k) (k_p k) psfs ks st1 = Err e ->
    exists kk, In kk ks /\ call kk (Err e).
  Proof.
    induction ks as [|kk ks IH]; intros st1 e A G H; cbn [calls] in H; [discriminate|].
    inversion G as [|? ? G1 G2]; subst. pose proof (ren_call kk st1 G1 A) as C. destruct (ren _ _ _ kk st1) as [[a s]|e'] eqn:Er; cbn [bind snd] in H.
    - destruct (calls _ _ _ ks s) as [x|e'] eqn:Ec; cbn [bind] in H; [discriminate|]. injection H as ->.
      pose proof (after_trans _ _ _ _ A (ren_after _ _ _ _ _ _ _ Er)) as A1. destruct (IH _ _ A1 G2 Ec) as (kx & I & Cx). exists kx. split; [right; exact I|exact Cx].
    - injection H as ->. exists kk. split; [left; reflexivity|exact C].
  Qed.

  (** The serial writer. *)
  Definition sstep (x : list fl * St) (kk : obj * Z * slot) : res (list fl * St) :=
    let* r := render_state (k_l k) (k_p k) psfs (k_obj kk) (k_slot kk) (snd x) in
    let* hdu' := put_typed (k_slot kk) (fst r (snd r)) (fst x) in Ok (hdu', snd r).

  Lemma serial_prefix ks : forall h st1 h' st2, after psfs st st1 -> Forall good ks -> foldM sstep ks (h, st1) = Ok (h', st2) ->
    exists arrs, Forall2 (fun kk a => call kk (Ok a)) ks arrs /\ foldM putk (combine ks arrs) h = Ok h' /\ after psfs st st2.
  Proof.
    induction ks as [|kk ks IH]; intros h st1 h' st2 A G H; cbn [foldM] in H.
    - injection H as <- <-. exists []. split; [constructor|]. split; [reflexivity|exact A].
    - inversion G as [|? ? G1 G2]; subst. apply bind_ok in H. destruct H as ([h1 s1] & H1 & H). unfold sstep in H1. cbn [fst snd] in H1.
      apply bind_ok in H1. destruct H1 as ([a s] & Er & H1). cbn [fst snd] in H1. apply bind_ok in H1. destruct H1 as (h2 & Hp & E). injection E as <- <-.
      pose proof (ren_call kk st1 G1 A) as C. unfold ren in C. rewrite Er in C. unfold now in C. cbn [fst snd] in C.
      pose proof (after_trans _ _ _ _ A (ren_after _ _ _ _ _ _ _ Er)) as A1. destruct (IH _ _ _ _ A1 G2 H) as (arrs & F & P & A2).
      exists (a s :: arrs). split; [constructor; assumption|]. split; [|exact A2]. cbn [combine foldM]. unfold putk at 1. cbn [fst snd]. rewrite Hp. exact P.
  Qed.

  (** The jobs. *)
  Variables (cat : list obj) (n : Z) (fresh : Z -> bool) (st' : St).
  Hypothesis NC : Forall ncut_ok cat.
  Hypothesis OWN : own_arrays psfs st.
  Hypothesis A0 : after psfs st st'.

  Lemma jobs_call js : forall outs a outs' a', after psfs st a -> Forall good (flat_map (kj cat n) js) ->
    foldM (jstep (k_l k) (k_p k) psfs st' cat n fresh) js (outs, a) = Ok (outs', a') ->
    exists ls, outs' = outs ++ ls /\ shapes cat n js ls /\ Forall2 (fun kk x => call kk (Ok x)) (flat_map (kj cat n) js) (concat ls).
  Proof.
    induction js as [|j js IH]; intros outs a outs' a' A G H; cbn [foldM] in H.
    - injection H as <- <-. exists []. rewrite app_nil_r. repeat split; constructor.
    - apply bind_ok in H. destruct H as ([o1 a1] & H1 & H2). unfold jstep in H1. cbn [fst snd] in H1.
      rewrite job_calls in H1 by (apply job_ncut; exact NC). apply bind_ok in H1. destruct H1 as ([o2 a2] & H1 & E1). cbn [fst snd] in E1.
      apply bind_ok in H1. destruct H1 as ([l a3] & H1 & E3). cbn [fst snd] in E3. injection E3 as <- <-. injection E1 as <- <-.
      cbn [flat_map] in G. apply Forall_app in G. destruct G as (G1 & G2).
      assert (AJ : after psfs st (if fresh j then st' else a)) by (destruct (fresh j); assumption).
      destruct (calls_own _ _ _ st OWN _ _ _ _ AJ H1) as (_ & M). destruct (calls_call _ _ _ _ AJ G1 H1) as (F & A3).
      destruct (IH _ _ _ _ A3 G2 H2) as (ls & -> & Sh & FF).
      exists (map now l :: ls). rewrite M. split; [rewrite <- app_assoc; reflexivity|].
      split; [constructor; [rewrite map_length; eapply calls_length; exact H1|exact Sh]|].
      cbn [flat_map concat]. apply Forall2_app; [exact F|exact FF].
  Qed.

  Lemma jobs_err js : forall outs a e, after psfs st a -> Forall good (flat_map (kj cat n) js) ->
    foldM (jstep (k_l k) (k_p k) psfs st' cat n fresh) js (outs, a) = Err e -> exists kk, In kk (flat_map (kj cat n) js) /\ call kk (Err e).
  Proof.
    induction js as [|j js IH]; intros outs a e A G H; cbn [foldM] in H; [discriminate|].
    cbn [flat_map] in *. apply Forall_app in G. destruct G as (G1 & G2).
    assert (AJ : after psfs st (if fresh j then st' else a)) by (destruct (fresh j); assumption).
    unfold jstep at 1 in H. cbn [fst snd] in H. rewrite job_calls in H by (apply job_ncut; exact NC). fold (kj cat n j) in H.
    destruct (calls (k_l k) (k_p k) psfs (kj cat n j) (if fresh j then st' else a)) as [[l a3]|e'] eqn:EC; cbn [bind fst snd] in H.
    - destruct (calls_call _ _ _ _ AJ G1 EC) as (_ & A3). destruct (IH _ _ _ A3 G2 H) as (kk & I & C). exists kk. split; [apply in_or_app; right; exact I|exact C].
    - injection H as ->. destruct (calls_err _ _ _ AJ G1 EC) as (kk & I & C). exists kk. split; [apply in_or_app; left; exact I|exact C].
  Qed.

  Lemma write_jobs_disk js ls : shapes cat n js ls -> forall hdu,
    loop (fun hdu jo => write_job_disk (job_objs cat n (fst jo)) (snd jo) hdu) (combine js ls) hdu =
    loop (fun h ka => step h (putk h ka)) (combine (flat_map (kj cat n) js) (concat ls)) hdu.
  Proof.
    induction 1 as [|j l js ls Hl Sh IH]; intros hdu; [reflexivity|].
    cbn [combine loop fst snd flat_map concat]. rewrite combine_app2 by (symmetry; exact Hl). rewrite loop_app.
    rewrite write_job_disk_flat by (first [exact Hl|apply job_ncut; exact NC]). fold (kj cat n j).
    destruct (loop _ (combine (kj cat n j) l) hdu) as [h [e|]]; [reflexivity|apply IH].
  Qed.

  Lemma joblib_disk_calls hdu h e : 1 <= n -> Forall good (cat_keys cat) ->
    joblib_disk n fresh (k_l k) (k_p k) psfs cat st' hdu = (h, Some e) ->
    h = hdu /\ (exists kk, In kk (cat_keys cat) /\ call kk (Err e)) \/
    exists arrs, Forall2 (fun kk x => call kk (Ok x)) (cat_keys cat) arrs /\
      loop (fun h ka => step h (putk h ka)) (combine (cat_keys cat) arrs) hdu = (h, Some e).
  Proof.
    intros Hn G. unfold joblib_disk. cbv zeta.
    set (nj := if zlen cat / n * n <? zlen cat then zlen cat / n + 1 else zlen cat / n).
    assert (Hnj : 0 <= nj /\ zlen cat <= nj * n).
    { pose proof (Z.div_mod (zlen cat) n ltac:(lia)). pose proof (Z.mod_pos_bound (zlen cat) n ltac:(lia)).
      pose proof (zlen_nonneg cat). assert (0 <= zlen cat / n) by (apply Z.div_pos; lia).
      unfold nj. dif Ed; nia. }
    assert (AK : flat_map (kj cat n) (zrange nj) = cat_keys cat).
    { pose proof (chunks_all cat n nj ltac:(lia) ltac:(lia) ltac:(lia)) as CA. apply (f_equal cat_keys) in CA. rewrite <- CA.
      clear. unfold kj, cat_keys, job_objs, chunk. cbv zeta. induction (zrange nj) as [|j js IH]; [reflexivity|]. cbn [flat_map]. rewrite flat_map_app, IH. reflexivity. }
    clearbody nj. rewrite <- AK in G. fold (jstep (k_l k) (k_p k) psfs st' cat n fresh). intros H.
    destruct (foldM _ _ _) as [[outs a]|e'] eqn:EF.
    - right. destruct (jobs_call _ _ _ _ _ A0 G EF) as (ls & -> & Sh & F). cbn [fst app] in H. rewrite write_jobs_disk in H by exact Sh.
      rewrite AK in *. exists (concat ls). split; [exact F|exact H].
    - left. injection H as <- ->. split; [reflexivity|]. rewrite <- AK. eapply jobs_err; [exact A0|exact G|exact EF].
  Qed.
End Calls.

(** * The whole write *)

Lemma make_split {St} k jl types rows (psfs : list (spsf St)) st input junk pjunk qjunk f e : arrays_ok psfs st ->
  make_disk k jl types rows psfs st input junk pjunk None = (Some f, Some e) ->
  exists tp st', Forall ncut_ok (m_cat (pf_meds f)) /\ tiles 0 (psf_ranges (m_cat (pf_meds f))) tp /\
    Forall (fun o => Forall sh_ok (used_slots o)) (m_cat (pf_meds f)) /\ m_psf_cols (pf_meds f) = PsfRCCut /\ after psfs st st' /\
    Forall (fun kk => 0 <= s_file (k_slot kk) < zlen psfs) (cat_keys (m_cat (pf_meds f))) /\
    (make_meds k types rows None input junk qjunk = Err e /\ pf_psf f = map pjunk (zrange tp) \/
     (exists f0, make_meds k types rows None input junk qjunk = Ok f0 /\ forall t, ext_find (m_ext (pf_meds f)) t = ext_find (m_ext f0) t) /\
     match jl with
     | None => serial_disk (k_l k) (k_p k) psfs (m_cat (pf_meds f)) st' (map pjunk (zrange tp))
     | Some (n, fresh) => joblib_disk n fresh (k_l k) (k_p k) psfs (m_cat (pf_meds f)) st' (map pjunk (zrange tp))
     end = (pf_psf f, Some e)).
Proof.
  intros OKA. unfold make_disk, make_meds.
  destruct (new_maker k types rows None input) as [m|e0] eqn:EM; cbn [bind]; [|discriminate].
  destruct (zlen psfs =? zlen rows) eqn:EZ; cbn [bind]; [|discriminate].
  unfold new_maker in EM. apply bind_ok in EM. destruct EM as (nm & _ & EM). apply bind_ok in EM. destruct EM as (tys & _ & EM).
  cbn [bind] in EM. injection EM as <-. unfold write, full_layout. cbn [mk_conf mk_rows mk_psf mk_cat k_types k_l k_p].
  destruct (build_layout _ _ _) as [[cat0 total]|e0] eqn:EB; cbn [bind fst snd]; [|discriminate].
  destruct (layout_state _ _ _ _ _ _ _) as [[[[cat s] tp] st']|e0] eqn:EL; cbn [bind]; [|discriminate].
  destruct (build_layout_inv _ _ _ _ _ EB) as (objs & nslots & _ & _ & F & _).
  pose proof (laid_out_ncut_ok _ _ _ _ _ F) as N0.
  destruct (layout_state_ok _ _ _ _ _ _ _ _ _ _ _ N0 EL) as (N & _).
  destruct (layout_tiles _ _ _ st OKA _ _ _ _ _ _ _ _ N0 (after_none _ _) EL) as (T & Q & SO & A & SH).
  replace tp with s in * by lia. clear Q.
  assert (HV : Forall (fun kk => 0 <= s_file (k_slot kk) < zlen psfs) (cat_keys cat)).
  { assert (L : zlen (map (fun _ => mkPsf (fun _ _ _ => mkImg 0 0 []) None (fun _ _ => (0%Q, 0%Q))) psfs) = zlen (map ir_image rows))
      by (rewrite (zlen_map ir_image rows), zlen_map; lia).
    pose proof (psf_files_valid _ _ _ _ _ _ L F) as V.
    assert (V2 : Forall (fun o => Forall (fun s => 0 <= s_file s < zlen psfs) (used_slots o)) cat).
    { clear -SO V. induction SO as [|o o' cat0 cat (E1 & E2 & E3) SO IH]; [constructor|]. inversion V as [|? ? V1 V2]; subst. constructor; [|apply IH; exact V2].
      unfold used_slots in *. rewrite <- E1. clear -E3 V1. revert V1. generalize (Z.to_nat (o_ncut o)). induction E3 as [|a b l l' (H1 & _) E3 IH]; intros [|n] V; cbn [firstn] in *; try constructor.
      - inversion V as [|? ? V1 V2]; subst. unfold file_valid in V1. rewrite zlen_map in V1. lia.
      - apply IH. inversion V; assumption. }
    apply Forall_forall. intros [[o i] s1] Hk. apply in_cat_keys' in Hk; [|exact N]. destruct Hk as (Ho & Hi & Hs).
    rewrite Forall_forall in V2. specialize (V2 o Ho). rewrite Forall_forall in V2. apply V2. unfold used_slots, k_slot. cbn [snd].
    assert (Z : zget (firstn (Z.to_nat (o_ncut o)) (o_slots o)) i = Some s1).
    { unfold zget in *. destruct (i <? 0) eqn:E0; [discriminate|]. rewrite nth_error_firstn. dif E; [exact Hs|lia]. }
    eapply zget_In; exact Z. }
  assert (FS : Forall2 same_obj cat cat0).
  { clear -SO. induction SO as [|a b l l' (E1 & E2 & E3) F IH]; constructor; [|exact IH].
    split; [congruence|]. split; [congruence|]. clear -E3. induction E3 as [|x y l l' (H1 & H2 & H3 & H4) E IH]; constructor; [|exact IH].
    repeat split; congruence. }
  pose proof (types_agrees (k_unusable k) cat (map ir_src rows) tys (reserve tys total junk)) as AG.
  assert (WS : match write_types (k_unusable k) cat (map ir_src rows) tys (reserve tys total junk),
                     write_types (k_unusable k) cat0 (map ir_src rows) tys (reserve tys total junk) with
               | Ok x, Ok y => forall t, ext_find x t = ext_find y t | Err e, Err e' => e = e' | _, _ => False end).
  { pose proof (fun t => write_types_same (k_unusable k) cat cat0 (map ir_src rows) (t :: tys) FS tys (reserve tys total junk) (reserve tys total junk)
      (incl_tl t (incl_refl _)) (fun _ _ => eq_refl)) as W.
    destruct (write_types _ cat _ _ _) as [x|e1], (write_types _ cat0 _ _ _) as [y|e2].
    - intros t. apply (W t). left; reflexivity.
    - exact (W TImage).
    - exact (W TImage).
    - exact (W TImage). }
  unfold write_data. cbn [k_types k_unusable k_number_col].
  intros H. exists s, st'.
  destruct (types_on_disk _ _ _ _ _) as [ext [e1|]].
  - destruct (write_types _ cat _ _ _) as [x|e2]; cbn [agrees snd] in AG; [discriminate|]. injection AG as <-.
    destruct (write_types _ cat0 _ _ _) as [y|e3]; [contradiction|]. subst e3. injection H as <- <-. cbn [pf_meds pf_psf m_cat m_psf_cols m_ext bind].
    split; [exact N|]. split; [exact T|]. split; [exact SH|]. split; [reflexivity|]. split; [exact A|]. split; [exact HV|]. left. split; reflexivity.
  - destruct (write_types _ cat _ _ _) as [x|e2]; cbn [agrees snd] in AG; [|discriminate]. injection AG as <-.
    destruct (write_types _ cat0 _ _ _) as [y|e3]; [|contradiction].
    destruct (match jl with None => _ | Some _ => _ end) as [h e4] eqn:EJ. injection H as <- ->. cbn [pf_meds pf_psf m_cat m_psf_cols m_ext bind snd].
    split; [exact N|]. split; [exact T|]. split; [exact SH|]. split; [reflexivity|]. split; [exact A|]. split; [exact HV|]. right.
    split; [|exact EJ]. eexists. split; [reflexivity|]. exact WS.
Qed.

Section Left.
  Context {St : Type}.
  Variables (k : mconf) (types : list string) (rows : list imrow) (psfs : list (spsf St)) (st : St) (input : list obj)
    (junk : ctype -> Z -> Q) (pjunk : Z -> fl) (qjunk : Z -> Q) (f : pfile) (e : err).
  Hypothesis OKA : arrays_ok psfs st.

  Lemma left_serial : make_disk k None types rows psfs st input junk pjunk None = (Some f, Some e) ->
    (make_meds k types rows None input junk qjunk = Err e /\ forall iobj icut o s, cutout_at (pf_meds f) iobj icut o s -> untouched f pjunk iobj icut s) \/
    ((exists f0, make_meds k types rows None input junk qjunk = Ok f0 /\ forall t, ext_find (m_ext (pf_meds f)) t = ext_find (m_ext f0) t) /\
     up_to k psfs st f pjunk e (fun o s => raises k psfs st o s e \/ unfit k psfs st o s e)).
  Proof.
    intros H. destruct (make_split _ _ _ _ _ _ _ _ _ qjunk _ _ OKA H) as (tp & st' & N & T & SH & PC & A & HV & [(M & P)|(M & W)]).
    - left. split; [exact M|]. eapply all_untouched; eassumption.
    - right. split; [exact M|]. unfold serial_disk in W. rewrite (loop_cat_keys (fun (x : list fl * St) o s =>
        let* r := render_state (k_l k) (k_p k) psfs o s (snd x) in let* hdu' := put_typed s (fst r (snd r)) (fst x) in Ok (hdu', snd r))) in W by exact N.
      assert (W' : (let '(hdu', _, e) := loop (fun x kk => step x (sstep k psfs x kk)) (cat_keys (m_cat (pf_meds f))) (map pjunk (zrange tp), st') in (hdu', e)) =
        (pf_psf f, Some e)) by exact W. clear W. rename W' into W.
      destruct (loop_stop (sstep k psfs) (cat_keys (m_cat (pf_meds f))) (map pjunk (zrange tp), st') _ eq_refl) as [(s' & E & _)|(pre & x & post & [h s1] & e1 & E & E2 & FO & FX)];
        [rewrite E in W; destruct s'; discriminate|].
      rewrite E2 in W. injection W as -> ->. rewrite E in HV. apply Forall_app in HV. destruct HV as (G1 & G2). inversion G2 as [|? ? G3 G4]; subst.
      destruct (serial_prefix k psfs st _ _ _ _ _ A G1 FO) as (arrs & F & P & A1).
      destruct (stage k psfs st pjunk tp f OKA N T PC SH _ _ _ _ E F P) as (i0 & C0 & B1 & B2 & B3 & R).
      exists i0, (k_cut x), (k_obj x), (k_slot x). split; [exact C0|]. split.
      + pose proof (ren_call k psfs st x s1 G3 A1) as C. unfold sstep in FX. cbn [fst snd] in FX. unfold ren in C.
        destruct (render_state _ _ _ _ _ s1) as [r|e2]; cbn [bind] in FX.
        * right. exists (now r). split; [exact C|]. change (fst r (snd r)) with (now r) in FX. destruct (put_typed (k_slot x) (now r) (pf_psf f)) as [h2|e3] eqn:EP; cbn [bind] in FX; [discriminate|]. injection FX as ->.
          eapply put_err; [eapply (call_ok k psfs st OKA); exact C|exact B1|exact B2|exact B3|exact EP].
        * left. injection FX as ->. exact C.
      + intros iobj icut o s Hc. destruct (R _ _ _ _ Hc) as (R1 & R2 & R3). split; [exact R1|]. split; [exact R2|]. intros; apply R3; assumption.
  Qed.

  Lemma left_joblib n fresh : 1 <= n -> own_arrays psfs st -> make_disk k (Some (n, fresh)) types rows psfs st input junk pjunk None = (Some f, Some e) ->
    (make_meds k types rows None input junk qjunk = Err e /\ forall iobj icut o s, cutout_at (pf_meds f) iobj icut o s -> untouched f pjunk iobj icut s) \/
    ((exists f0, make_meds k types rows None input junk qjunk = Ok f0 /\ forall t, ext_find (m_ext (pf_meds f)) t = ext_find (m_ext f0) t) /\
     ((exists iobj icut o s, cutout_at (pf_meds f) iobj icut o s /\ raises k psfs st o s e) /\
      (forall iobj icut o s, cutout_at (pf_meds f) iobj icut o s -> untouched f pjunk iobj icut s) \/
      up_to k psfs st f pjunk e (fun o s => unfit k psfs st o s e))).
  Proof.
    intros Hn OWN H. destruct (make_split _ _ _ _ _ _ _ _ _ qjunk _ _ OKA H) as (tp & st' & N & T & SH & PC & A & HV & [(M & P)|(M & W)]).
    - left. split; [exact M|]. eapply all_untouched; eassumption.
    - right. split; [exact M|].
      destruct (joblib_disk_calls k psfs st _ n fresh st' N OWN A _ _ _ Hn HV W) as [(Eh & kk & I & C)|(arrs & F & L)].
      + left. split; [|eapply all_untouched; eassumption]. destruct (key_cutout _ _ N I) as (iobj & Hc). exists iobj, (k_cut kk), (k_obj kk), (k_slot kk).
        split; [exact Hc|exact C].
      + right. destruct (loop_stop putk (combine (cat_keys (m_cat (pf_meds f))) arrs) (map pjunk (zrange tp)) _ eq_refl) as [(s' & E & _)|(pre & x & post & h & e1 & E & E2 & FO & FX)];
          [rewrite E in L; discriminate|].
        rewrite E2 in L. injection L as -> ->.
        assert (LE : length (cat_keys (m_cat (pf_meds f))) = length arrs) by (clear -F; induction F; cbn; congruence).
        assert (SP : cat_keys (m_cat (pf_meds f)) = map fst pre ++ fst x :: map fst post /\ arrs = map snd pre ++ snd x :: map snd post).
        { split.
          - rewrite <- (map_fst_combine' _ _ LE), E, map_app. reflexivity.
          - rewrite <- (map_snd_combine' _ _ LE), E, map_app. reflexivity. }
        destruct SP as (SP1 & SP2).
        assert (CP : combine (map fst pre) (map snd pre) = pre) by (clear; induction pre as [|[a b] l IH]; [reflexivity|cbn [map combine fst snd]; f_equal; exact IH]).
        rewrite SP1, SP2 in F. apply Forall2_app_inv_l in F. destruct F as (l1 & l2 & F1 & F2 & EQ).
        assert (L1 : length l1 = length (map snd pre)) by (rewrite map_length; rewrite <- (map_length fst pre); clear -F1; induction F1; cbn; congruence).
        destruct (app_inj _ _ _ _ L1 (eq_sym EQ)) as (-> & ->). inversion F2 as [|? ? ? ? CX FX2]; subst.
        rewrite <- CP in FO.
        destruct (stage k psfs st pjunk tp f OKA N T PC SH _ _ _ _ SP1 F1 FO) as (i0 & C0 & B1 & B2 & B3 & R).
        exists i0, (k_cut (fst x)), (k_obj (fst x)), (k_slot (fst x)). split; [exact C0|]. split.
        * exists (snd x). split; [exact CX|]. unfold putk in FX.
          eapply put_err; [eapply (call_ok k psfs st OKA); exact CX|exact B1|exact B2|exact B3|exact FX].
        * intros iobj icut o s Hc. destruct (R _ _ _ _ Hc) as (R1 & R2 & R3). split; [exact R1|]. split; [exact R2|]. intros; apply R3; assumption.
  Qed.

  (** The old file. *)
  Lemma left_old jl old : make_disk k jl types rows psfs st input junk pjunk old =
    (match fst (make_disk k jl types rows psfs st input junk pjunk None) with None => old | Some f => Some f end,
     snd (make_disk k jl types rows psfs st input junk pjunk None)).
  Proof.
    unfold make_disk. destruct (let* m := _ in _) as [[[tys total] [[[cat s] tp] st']]|e']; [|reflexivity].
    destruct (types_on_disk _ _ _ _ _) as [ext [e1|]]; [reflexivity|].
    destruct (match jl with None => _ | Some _ => _ end) as [h e4]. reflexivity.
  Qed.
End Left.

(** * Files that are complete *)

Lemma serial_disk_agrees {St} c pc (psfs : list (spsf St)) cat st hdu : agrees (serial_disk c pc psfs cat st hdu) (serial_state c pc psfs cat st hdu).
Proof.
  unfold serial_disk, serial_state. match goal with |- agrees (let '_ := loop ?b _ _ in _) (let* _ := foldM ?f _ _ in _) =>
    pose proof (loop_agrees b f cat (fun s x => loop_agrees _ _ _ (fun s0 x0 => step_agrees s0 _) s) (hdu, st)) as H end.
  destruct (foldM _ _ _) as [[h s]|e]; cbn [agrees bind fst] in *; [rewrite H; reflexivity|].
  destruct (loop _ _ _) as [[h s] e']. exact H.
Qed.

Lemma write_job_disk_agrees objs outs hdu : agrees (write_job_disk objs outs hdu) (write_job_typed objs outs hdu).
Proof.
  unfold write_job_disk, write_job_typed. match goal with |- agrees (let '_ := loop ?b _ _ in _) (let* _ := foldM ?f _ _ in _) =>
    pose proof (loop_agrees b f objs (fun s x => loop_agrees _ _ _ (fun s0 x0 => step_agrees s0 _) s) (hdu, 0)) as H end.
  destruct (foldM _ _ _) as [[h s]|e]; cbn [agrees bind fst] in *; [rewrite H; reflexivity|].
  destruct (loop _ _ _) as [[h s] e']. exact H.
Qed.

Lemma joblib_disk_agrees {St} n fresh c pc (psfs : list (spsf St)) cat st hdu :
  agrees (joblib_disk n fresh c pc psfs cat st hdu) (joblib_state n fresh c pc psfs cat st hdu).
Proof.
  unfold joblib_disk, joblib_state. cbv zeta. destruct (foldM _ (zrange _) _) as [x|e]; cbn [bind agrees]; [|reflexivity].
  apply loop_agrees. intros. apply write_job_disk_agrees.
Qed.

Lemma disk_agrees {St} k jl types rows (psfs : list (spsf St)) st input junk pjunk old :
  match make_state k jl types rows psfs st input junk pjunk with
  | Ok f => make_disk k jl types rows psfs st input junk pjunk old = (Some f, None)
  | Err e => snd (make_disk k jl types rows psfs st input junk pjunk old) = Some e
  end.
Proof.
  unfold make_disk, make_state.
  destruct (new_maker k types rows None input) as [m|e0]; cbn [bind snd]; [|reflexivity].
  destruct (if zlen psfs =? zlen rows then Ok tt else Err ValueError) as [u|e0]; cbn [bind snd]; [|reflexivity].
  destruct (build_layout _ _ _) as [[cat0 total]|e0]; cbn [bind fst snd]; [|reflexivity].
  destruct (layout_state _ _ _ _ _ _ _) as [[[[cat s] tp] st']|e0]; cbn [bind snd]; [|reflexivity].
  pose proof (types_agrees (k_unusable k) cat (map ir_src rows) (k_types (mk_conf m)) (reserve (k_types (mk_conf m)) total junk)) as AG.
  destruct (write_types _ _ _ _ _) as [ext|e1]; cbn [agrees bind] in *.
  - rewrite AG. cbv zeta.
    assert (W : agrees (match jl with None => serial_disk (k_l k) (k_p k) psfs cat st' (map pjunk (zrange tp))
                        | Some (n, fresh) => joblib_disk n fresh (k_l k) (k_p k) psfs cat st' (map pjunk (zrange tp)) end)
                       (match jl with None => serial_state (k_l k) (k_p k) psfs cat st' (map pjunk (zrange tp))
                        | Some (n, fresh) => joblib_state n fresh (k_l k) (k_p k) psfs cat st' (map pjunk (zrange tp)) end))
      by (destruct jl as [[n fresh]|]; [apply joblib_disk_agrees|apply serial_disk_agrees]).
    destruct (match jl with None => serial_state _ _ _ _ _ _ | Some _ => _ end) as [h|e2]; cbn [agrees bind] in *.
    + rewrite W. reflexivity.
    + destruct (match jl with None => serial_disk _ _ _ _ _ _ | Some _ => _ end) as [h e3]. exact W.
  - destruct (types_on_disk _ _ _ _ _) as [ext [e2|]]; cbn [snd] in *; [exact AG|discriminate].
Qed.
