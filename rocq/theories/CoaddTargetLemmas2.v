(** Coadds of an object in a file and in what was extracted from it; files
    without epochs; witnesses. *)
From Coq Require Import Permutation Lqa Qfield Lia ZifyBool ZifyNat.
From Verif Require Import Base BaseLemmas Img Types Reader MakerLayout MakerWrite MakerFile Composite Coadd CoaddLemmas2 CoaddLemmas3 CompositeLemmas ReadLemmas CoaddTarget
  Extract SpecTiles SpecFile SpecExtract SpecChain SpecChain2 SpecCoaddTarget ChainLemmas ChainLemmas2 CoaddTargetLemmas ExampleData ExampleCoadd ExampleCoaddTarget.
Open Scope Z_scope.

Lemma same_obslist c o g i h j : same_answers g i h j -> get_obslist c o g i = get_obslist c o h j.
Proof.
  intros (M & _ & J & Sg & _). unfold get_obslist.
  destruct (M TImage (or_introl eq_refl)) as (_ & -> & _). apply BaseLemmas.bind_ext. intros ims _. destruct (zlen ims =? 1); [reflexivity|].
  destruct (M TWeight ltac:(tauto)) as (_ & -> & _). apply BaseLemmas.bind_ext. intros wts _.
  destruct (M TBmask ltac:(tauto)) as (_ & -> & _). apply BaseLemmas.bind_ext. intros bms _. apply BaseLemmas.bind_ext. intros wts' _.
  rewrite (mapM_ext_in (fun k => interpolate_coadd_seg g i (k + 1)) (fun k => interpolate_coadd_seg h j (k + 1))).
  2:{ intros k K. apply In_zrange in K. destruct (Sg (k + 1) ltac:(lia)) as (_ & _ & -> & _). reflexivity. }
  apply BaseLemmas.bind_ext. intros segs _.
  rewrite (foldM_ext_in (obslist_step c o g i (tl ims) wts' segs (map (imap qtrunc) (tl bms)))
             (obslist_step c o h j (tl ims) wts' segs (map (imap qtrunc) (tl bms)))); [reflexivity|].
  intros st k K. apply In_zrange in K. unfold obslist_step. do 7 (apply BaseLemmas.bind_ext; intros ? _).
  destruct (negb _); [reflexivity|]. destruct (J (k + 1) ltac:(lia)) as (_ & -> & _). reflexivity.
Qed.
Lemma same_coadd c o jm g i h j : same_answers g i h j -> get_coadd_obs c o g jm i = get_coadd_obs c o h jm j.
Proof.
  intros SA. unfold get_coadd_obs. rewrite (same_obslist c o g i h j SA). apply BaseLemmas.bind_ext. intros [ol fl] _. destruct ol as [|ob ol]; [reflexivity|].
  apply BaseLemmas.bind_ext. intros orm _. apply BaseLemmas.bind_ext. intros r _. destruct r as [[[[[[im wt] noise] jac] psf] prow] pcol].
  assert (E : interpolate_coadd_seg_image g i jm None = interpolate_coadd_seg_image h j jm None); [|rewrite E; reflexivity].
  destruct SA as (M & _ & J & _). unfold interpolate_coadd_seg_image. destruct (M TSeg ltac:(tauto)) as (_ & _ & C). rewrite (C 0) by lia.
  destruct (J 0 ltac:(lia)) as (_ & _ & -> & -> & _). reflexivity.
Qed.
Lemma coadd_extracted c o f g i o' : extractable f -> derived f g -> zget (m_cat g) i = Some o' -> target_of g = target_of f ->
  exists j p, zget (m_cat f) j = Some p /\ o_number p = o_number o' /\ coadd_of c o g i = coadd_of c o f j.
Proof.
  intros X D Z T. destruct (chain_answers f g i o' X D Z) as (j & p & P & N & SA). exists j, p. split; [exact P|]. split; [exact N|].
  unfold coadd_of. rewrite T. apply BaseLemmas.bind_ext. intros [jm|] _; [apply same_coadd; exact SA|]. rewrite (same_obslist c (o None) g i f j SA). reflexivity.
Qed.

(** * No epochs *)
Lemma first_epochs_nil l : first_epochs l [] <-> (forall o, In o l -> o_ncut o <= 1).
Proof.
  split.
  - intros H. remember [] as ss eqn:E. induction H as [|o l ss N F IH|]; [intros ? []| |discriminate]. intros p [<-|P]; [exact N|apply IH; assumption].
  - induction l as [|o l IH]; intros H; [constructor|]. apply fe_skip; [apply H; left; reflexivity|apply IH; intros p P; apply H; right; exact P].
Qed.
Lemma target_None f : target_of f = Ok None <-> (forall o, In o (m_cat f) -> o_ncut o <= 1).
Proof.
  rewrite <- first_epochs_nil. split.
  - intros H. assert (X : exists ss, first_epochs (m_cat f) ss).
    { unfold target_of in H. apply bind_ok in H. destruct H as (ss & H & _). exists ss. apply epochs_list. exact H. }
    destruct (target_spec f X) as (ss & t & F & T & S1). rewrite H in T. injection T as <-. subst ss. exact F.
  - intros H. destruct (target_spec f (ex_intro _ [] H)) as (ss & t & F & T & S1). rewrite T.
    rewrite (first_epochs_fun _ _ _ F H) in *. destruct t as [[[[a b] d] e]|]; [|reflexivity]. destruct S1 as (S1 & _). congruence.
Qed.
Lemma no_epochs c o f iobj ob : file_wf f -> has_ext f TImage -> target_of f = Ok None -> zget (m_cat f) iobj = Some ob ->
  1 <= o_ncut ob -> coadd_of c o f iobj = Ok (None, 1).
Proof.
  intros W (m & X) T A N. unfold coadd_of. rewrite T. cbn [bind].
  pose proof (proj1 (target_None f) T ob (zget_In _ _ _ A)) as N1.
  destruct (mosaic_blocks f iobj ob TImage m W A ltac:(lia) X) as (_ & li & _ & _ & _ & _ & LI & NI & _).
  unfold get_obslist. rewrite LI. cbn [bind]. rewrite NI. replace (o_ncut ob =? 1) with true by lia. reflexivity.
Qed.
Lemma target_exists f : file_wf f -> exists t, target_of f = Ok t.
Proof.
  intros (W & _). assert (X : exists ss, first_epochs (m_cat f) ss).
  { induction W as [|o l (H & _) W IH]; [exists []; constructor|]. destruct IH as (ss & IH). destruct (Z_le_gt_dec (o_ncut o) 1) as [L|L].
    - exists ss. apply fe_skip; assumption.
    - destruct (zget_range_Some (o_slots o) 1) as (s & S1); [lia|]. exists (s :: ss). apply fe_take; [lia|exact S1|exact IH]. }
  destruct (target_spec f X) as (ss & t & _ & T & _). exists t. exact T.
Qed.

(** * Witnesses *)
Lemma ex_tfile_facts j k f : ex_tfile j k ex_tobjs = Ok f -> has_ext f TImage -> has_ext f TWeight -> has_ext f TSeg -> has_ext f TBmask ->
  map o_number (m_cat f) = [1; 2] -> extractable f.
Proof.
  intros E X1 X2 X3 X4 N. apply (maker_extractable ex_conf ex_types (ex_trows j k) None ex_tobjs ex_junk (fun _ => 0%Q) f); try assumption.
  - repeat constructor; cbn; lia.
  - cbn. lia.
  - intros ? ? ? ? ? H. discriminate H.
  - reflexivity.
  - rewrite N. repeat constructor; cbn; intuition discriminate.
Qed.
Lemma singular_target : exists f j ss, extractable f /\ first_epochs (m_cat f) ss /\ (forall s, In s ss -> ~ (det (of_slot s) == 0)%Q) /\
  target_of f = Ok (Some j) /\ (det j == 0)%Q /\
  ex_facts (coadd_of ex_tconf (fun _ => ex_oracle 3) f 0) = Ok (Some (map (fun _ => 1%Q) (zrange 36)), 0).
Proof.
  destruct (ex_tfile (1#4, 0, 0, 1#4)%Q (-1#4, 0, 0, -1#4)%Q ex_tobjs) as [f|e] eqn:E; [|vm_compute in E; discriminate].
  assert (X : extractable f).
  { apply (ex_tfile_facts _ _ _ E); vm_compute in E; injection E as <-; [eexists; reflexivity..|reflexivity]. }
  vm_compute in E. injection E as E. destruct (target_exists f (proj1 X)) as (t & T). exists f.
  assert (F : exists ss, mapM (fun o => get_slot o 1) (filter (fun o => 1 <? o_ncut o) (m_cat f)) = Ok ss /\ map of_slot ss = [(0, 1#4, 1#4, 0); (0, -1#4, -1#4, 0)]%Q).
  { subst f. eexists. split; vm_compute; reflexivity. }
  destruct F as (ss & F & FS). exists (0#2, 0#32, 0#32, 0#2)%Q, ss. split; [exact X|]. split; [apply epochs_list; exact F|].
  split. { intros s I. apply (in_map of_slot) in I. rewrite FS in I. cbn [In] in I. destruct I as [<-|[<-|[]]]; vm_compute; discriminate. }
  split; [subst f; vm_compute; reflexivity|]. split; [reflexivity|]. subst f. vm_compute. reflexivity.
Qed.
Lemma others_matter : exists f g c o j i p q a b, extractable f /\ derived f g /\ zget (m_cat f) j = Some p /\ zget (m_cat g) i = Some q /\
  o_number p = o_number q /\ coadd_of c o f j = Ok (Some a, 0) /\ coadd_of c o g i = Ok (Some b, 0) /\ co_seg a <> co_seg b.
Proof.
  destruct (ex_tfile (1#4, 0, 0, 1#4)%Q (1#2, 0, 0, 1#2)%Q ex_tobjs) as [f|e] eqn:E; [|vm_compute in E; discriminate].
  assert (X : extractable f).
  { apply (ex_tfile_facts _ _ _ E); vm_compute in E; injection E as <-; [eexists; reflexivity..|reflexivity]. }
  destruct (extract_range false f 0 0) as [g|e] eqn:G; [|vm_compute in E; injection E as <-; vm_compute in G; discriminate].
  assert (D : derived f g) by (eapply derived_range; [apply derived_same|exact G]).
  exists f, g, ex_tconf, (fun _ => ex_oracle 3), 0, 0.
  vm_compute in E. injection E as E.
  assert (K : exists p q a b, zget (m_cat f) 0 = Some p /\ zget (m_cat g) 0 = Some q /\ o_number p = o_number q /\
     coadd_of ex_tconf (fun _ => ex_oracle 3) f 0 = Ok (Some a, 0) /\ coadd_of ex_tconf (fun _ => ex_oracle 3) g 0 = Ok (Some b, 0) /\ co_seg a <> co_seg b).
  { subst f. vm_compute in G. injection G as <-. do 4 eexists. split; [vm_compute; reflexivity|]. split; [vm_compute; reflexivity|].
    split; [vm_compute; reflexivity|]. split; [vm_compute; reflexivity|]. split; [vm_compute; reflexivity|]. cbn [co_seg]. discriminate. }
  destruct K as (p & q & a & b & K). exists p, q, a, b. split; [exact X|]. split; [exact D|]. exact K.
Qed.
