(** The order of the cutouts, and reading a file of which only a part was written. *)
From Coq Require Import Lia ZifyBool ZifyNat String Sorted.
From Verif Require Import Base BaseLemmas Img ImgLemmas Types BoundsM Reader MakerLayout MakerWrite MakerFile MakerFail SpecTiles SpecFile
  StartLemmas ReadLemmas WriteLemmas FileLemmas PsfLemmas MakerLemmas2 MakerLemmas3 Typed SpecTyped PsfTy SpecPsfTy PsfTyLemmas PsfTyLemmas2 PsfTyLemmas3
  PsfState SpecPsfState PsfStateLemmas PsfStateLemmas2 PsfFail SpecPsfFail FailLemmas FailLemmas2 PsfFailLemmas.
From Verif Require CoaddFlLemmas2.
Open Scope Z_scope.

(** * Order *)

Fixpoint ikeys (i : Z) (cat : list obj) : list (Z * (obj * Z * slot)) :=
  match cat with
  | [] => []
  | o :: cat' => map (fun ks => (i, (o, fst ks, snd ks))) (combine (zrange (o_ncut o)) (used_slots o)) ++ ikeys (i + 1) cat'
  end.

Lemma ikeys_keys cat : forall i, map snd (ikeys i cat) = cat_keys cat.
Proof.
  induction cat as [|o cat IH]; intros i; [reflexivity|]. cbn [ikeys]. rewrite map_app, IH, map_map. reflexivity.
Qed.

Lemma ikeys_In cat : Forall ncut_ok cat -> forall i j k, In (j, k) (ikeys i cat) <->
  i <= j /\ zget cat (j - i) = Some (k_obj k) /\ 0 <= k_cut k < o_ncut (k_obj k) /\ zget (o_slots (k_obj k)) (k_cut k) = Some (k_slot k).
Proof.
  induction 1 as [|o cat N F IH]; intros i j k; cbn [ikeys].
  - split; [intros []|intros (_ & H & _)]. unfold zget in H. destruct (_ <? 0); [discriminate|]. destruct (Z.to_nat _); discriminate.
  - rewrite in_app_iff, IH. split.
    + intros [H|(H1 & H2 & H3)].
      * apply in_map_iff in H. destruct H as ([c s] & E & H). cbn [fst snd] in E. injection E as <- <-. cbn [k_obj k_cut k_slot fst snd].
        assert (K : In (o, c, s) (cat_keys [o])).
        { unfold cat_keys. cbn [flat_map]. rewrite app_nil_r. apply in_map_iff. exists (c, s). split; [reflexivity|exact H]. }
        apply in_cat_keys' in K; [|constructor; [exact N|constructor]]. destruct K as (_ & R & Z).
        split; [lia|]. replace (i - i) with 0 by lia. split; [reflexivity|]. split; [exact R|exact Z].
      * split; [lia|]. split; [|exact H3]. rewrite CoaddFlLemmas2.zget_cons_pos by lia. replace (j - i - 1) with (j - (i + 1)) by lia. exact H2.
    + intros (H1 & H2 & H3 & H4). destruct (Z.eq_dec j i) as [->|NE].
      * left. replace (i - i) with 0 in H2 by lia. injection H2 as H2. 
        assert (K : In (o, k_cut k, k_slot k) (cat_keys [o])).
        { apply in_cat_keys'; [constructor; [exact N|constructor]|]. split; [left; reflexivity|]. rewrite H2. split; assumption. }
        unfold cat_keys in K. cbn [flat_map] in K. rewrite app_nil_r in K. apply in_map_iff in K. destruct K as (ks & E & K).
        apply in_map_iff. exists ks. split; [|exact K]. f_equal. rewrite E. destruct k as [[o' c] s]. cbn in H2 |- *. congruence.
      * right. split; [lia|]. split; [|split; [exact H3|exact H4]]. rewrite CoaddFlLemmas2.zget_cons_pos in H2 by lia. replace (j - (i + 1)) with (j - i - 1) by lia. exact H2.
Qed.

Definition ibefore (a b : Z * (obj * Z * slot)) : Prop := before (fst a) (k_cut (snd a)) (fst b) (k_cut (snd b)).

Lemma sorted_app {A} (R : A -> A -> Prop) l l' : StronglySorted R l -> StronglySorted R l' ->
  (forall a b, In a l -> In b l' -> R a b) -> StronglySorted R (l ++ l').
Proof.
  induction 1 as [|x l H IH F]; intros S' C; [exact S'|]. cbn [app]. constructor.
  - apply IH; [exact S'|]. intros a b Ha. apply C. right; exact Ha.
  - apply Forall_app. split; [exact F|]. apply Forall_forall. intros b Hb. apply C; [left; reflexivity|exact Hb].
Qed.
Lemma sorted_mid {A} (R : A -> A -> Prop) l x l' : StronglySorted R (l ++ x :: l') -> Forall (fun a => R a x) l /\ Forall (R x) l'.
Proof.
  induction l as [|y l IH]; cbn [app]; intros H; inversion H as [|? ? H1 H2]; subst.
  - split; [constructor|exact H2].
  - destruct (IH H1) as (A1 & A2). split; [|exact A2]. constructor; [|exact A1].
    apply Forall_app in H2. destruct H2 as (_ & H2). inversion H2; assumption.
Qed.
Lemma sorted_map {A B} (R : B -> B -> Prop) (g : A -> B) l : StronglySorted R (map g l) -> StronglySorted (fun a b => R (g a) (g b)) l.
Proof.
  induction l as [|x l IH]; cbn [map]; intros H; [constructor|]. inversion H as [|? ? H1 H2]; subst. constructor; [apply IH; exact H1|].
  rewrite Forall_map in H2. exact H2.
Qed.
Lemma sorted_seq n : forall a, StronglySorted Z.lt (map Z.of_nat (seq a n)).
Proof.
  induction n as [|n IH]; intros a; cbn [seq map]; constructor; [apply IH|].
  apply Forall_map, Forall_forall. intros x Hx. apply in_seq in Hx. lia.
Qed.

Lemma ikeys_sorted cat : Forall ncut_ok cat -> forall i, StronglySorted ibefore (ikeys i cat).
Proof.
  induction 1 as [|o cat N F IH]; intros i; cbn [ikeys]; [constructor|]. apply sorted_app; [|apply IH|].
  - assert (S : StronglySorted (fun a b : Z * slot => fst a < fst b) (combine (zrange (o_ncut o)) (used_slots o))).
    { apply (sorted_map Z.lt fst). rewrite slots_fst by exact N. apply sorted_seq. }
    induction S as [|p l S IS FS]; cbn [map]; constructor; [exact IS|]. apply Forall_map. eapply Forall_impl; [|exact FS].
    intros q Hq. right. cbn [fst snd k_cut]. split; [reflexivity|exact Hq].
  - intros a b Ha Hb. apply in_map_iff in Ha. destruct Ha as (ks & <- & _). destruct b as [j k]. apply ikeys_In in Hb; [|exact F].
    left. cbn [fst]. lia.
Qed.

(** The keys before and after one of them. *)
Lemma keys_order f pre x post : Forall ncut_ok (m_cat f) -> cat_keys (m_cat f) = pre ++ x :: post ->
  exists i0, cutout_at f i0 (k_cut x) (k_obj x) (k_slot x) /\
    forall iobj icut o s, cutout_at f iobj icut o s ->
      (before iobj icut i0 (k_cut x) -> In (o, icut, s) pre) /\ (before i0 (k_cut x) iobj icut -> In (o, icut, s) post).
Proof.
  intros N E. rewrite <- (ikeys_keys _ 0) in E. apply map_eq_app in E. destruct E as (ip & ir & E & <- & E2).
  destruct ir as [|[i0 x'] ipost]; [discriminate|]. cbn [map snd] in E2. injection E2 as -> <-.
  pose proof (ikeys_sorted _ N 0) as S. rewrite E in S. apply sorted_mid in S. destruct S as (S1 & S2).
  rewrite Forall_forall in S1, S2.
  assert (IN : forall j k, In (j, k) (ip ++ (i0, x) :: ipost) <-> 0 <= j /\ zget (m_cat f) (j - 0) = Some (k_obj k) /\ 0 <= k_cut k < o_ncut (k_obj k) /\
    zget (o_slots (k_obj k)) (k_cut k) = Some (k_slot k)) by (intros; rewrite <- E; apply ikeys_In; exact N).
  exists i0. split.
  - destruct (proj1 (IN i0 x)) as (_ & Z & R & Y); [apply in_or_app; right; left; reflexivity|].
    rewrite Z.sub_0_r in Z. split; [exact Z|]. split; [exact R|exact Y].
  - intros iobj icut o s (C1 & C2 & C3).
    assert (I : In (iobj, (o, icut, s)) (ip ++ (i0, x) :: ipost)).
    { apply IN. cbn [k_obj k_cut k_slot fst snd]. rewrite Z.sub_0_r. pose proof (zget_Some_range _ _ _ C1). split; [lia|]. auto. }
    apply in_app_or in I. destruct I as [I|[I|I]].
    + pose proof (S1 _ I) as B. unfold ibefore in B. cbn [fst snd k_cut] in B. split.
      * intros _. apply in_map_iff. exists (iobj, (o, icut, s)). split; [reflexivity|exact I].
      * intros B2. exfalso. unfold before in *. unfold k_cut in *. cbn [fst snd] in *. lia.
    + injection I as <- ->. cbn [k_cut fst snd]. unfold before. split; intros; exfalso; lia.
    + pose proof (S2 _ I) as B. unfold ibefore in B. cbn [fst snd k_cut] in B. split.
      * intros B2. exfalso. unfold before in *. unfold k_cut in *. cbn [fst snd] in *. lia.
      * intros _. apply in_map_iff. exists (iobj, (o, icut, s)). split; [reflexivity|exact I].
Qed.

(** * Reading *)

Lemma read_psf f iobj icut o s d : m_psf_cols (pf_meds f) = PsfRCCut -> cutout_at (pf_meds f) iobj icut o s ->
  0 <= s_psf_start s -> sh_ok s -> 0 < s_psf_nr s * s_psf_nc s -> s_psf_start s + s_psf_nr s * s_psf_nc s <= zlen (pf_psf f) ->
  zlen d = s_psf_nr s * s_psf_nc s -> (forall j, 0 <= j < zlen d -> zget (pf_psf f) (s_psf_start s + j) = zget d j) ->
  get_psf_typed f iobj icut = Ok (mkImg (s_psf_nr s) (s_psf_nc s) d).
Proof.
  intros EC (C1 & C2 & C3) P0 (Q1 & Q2) P1 P2 L G. unfold get_psf_typed. rewrite (check_indices_ok _ _ _ _ C1 C2). cbn [bind].
  unfold get_psf_shape. rewrite EC. rewrite (get_slot_ok _ _ _ C3). cbn [bind fst snd].
  assert (ES : slice (pf_psf f) (s_psf_start s) (s_psf_start s + s_psf_nr s * s_psf_nc s) = Ok d).
  { apply slice_spec; try lia. intros j Hj. apply G. lia. }
  rewrite ES. cbn [bind]. unfold reshape. rewrite L. dif E; [reflexivity|lia].
Qed.

Lemma tiles_split {A} (g : A -> Z * Z) l l' : forall a b, tiles a (map g (l ++ l')) b -> exists m, tiles a (map g l) m /\ tiles m (map g l') b.
Proof.
  induction l as [|x l IH]; intros a b H; cbn [app map] in *; [exists a; split; [constructor|exact H]|].
  inversion H as [|? m1 ? ? M T E1 E2]; subst. destruct (IH _ _ T) as (m & T1 & T2). exists m. split; [|exact T2]. constructor; assumption.
Qed.

Section Stage.
  Context {St : Type}.
  Variables (k : mconf) (psfs : list (spsf St)) (st : St) (pjunk : Z -> fl) (tp : Z) (f : pfile).
  Hypothesis OKA : arrays_ok psfs st.
  Hypothesis N : Forall ncut_ok (m_cat (pf_meds f)).
  Hypothesis T : tiles 0 (psf_ranges (m_cat (pf_meds f))) tp.
  Hypothesis PC : m_psf_cols (pf_meds f) = PsfRCCut.
  Hypothesis SH : Forall (fun o => Forall sh_ok (used_slots o)) (m_cat (pf_meds f)).
  Notation keys := (cat_keys (m_cat (pf_meds f))).

  Lemma call_ok o s a : call_for k psfs st o s (Ok a) -> arr_ok a.
  Proof.
    intros (p & st1 & Hp & A & H). destruct (sp_rec p st1 _ _ _) as [[a' st2]|e] eqn:E; [|discriminate]. injection H as ->.
    destruct OKA as (O & _). eapply O; [exact A|eapply zget_In; exact Hp|exact E].
  Qed.

  Lemma sh_cut iobj icut o s : cutout_at (pf_meds f) iobj icut o s -> sh_ok s.
  Proof.
    intros (C1 & C2 & C3). rewrite Forall_forall in SH. specialize (SH o (zget_In _ _ _ C1)). rewrite Forall_forall in SH. apply SH.
    unfold used_slots. assert (Z : zget (firstn (Z.to_nat (o_ncut o)) (o_slots o)) icut = Some s).
    { unfold zget in *. destruct (icut <? 0) eqn:E0; [discriminate|]. rewrite nth_error_firstn. dif E; [exact C3|lia]. }
    eapply zget_In; exact Z.
  Qed.

  Lemma tiles_all : tiles 0 (map p_range keys) tp.
  Proof. rewrite cat_keys_psf_ranges by exact N. exact T. Qed.

  Lemma all_untouched : pf_psf f = map pjunk (zrange tp) -> forall iobj icut o s, cutout_at (pf_meds f) iobj icut o s -> untouched f pjunk iobj icut s.
  Proof.
    intros E iobj icut o s C P. pose proof (cutout_key _ _ _ _ _ N C) as K. destruct (tiles_keys p_range _ _ _ tiles_all) as (K1 & _).
    specialize (K1 _ K). unfold p_range in K1. cbn [k_slot fst snd] in K1. pose proof (tiles_le _ _ _ T).
    eapply read_psf; [exact PC|exact C|lia|eapply sh_cut; exact C|exact P| | |].
    - rewrite E, zlen_map, zlen_zrange; lia.
    - rewrite zlen_map, zlen_zrange; lia.
    - rewrite zlen_map, zlen_zrange by lia. intros j Hj. rewrite E, !zget_map, !zget_zrange by lia. reflexivity.
  Qed.

  (** Some images in the order of the catalog were written. *)
  Lemma stage pre x post arrs : keys = pre ++ x :: post -> Forall2 (fun kk a => call_for k psfs st (k_obj kk) (k_slot kk) (Ok a)) pre arrs ->
    foldM putk (combine pre arrs) (map pjunk (zrange tp)) = Ok (pf_psf f) ->
    exists i0, cutout_at (pf_meds f) i0 (k_cut x) (k_obj x) (k_slot x) /\
      0 <= s_psf_start (k_slot x) /\ s_psf_start (k_slot x) + s_psf_nr (k_slot x) * s_psf_nc (k_slot x) <= tp /\ zlen (pf_psf f) = tp /\
      forall iobj icut o s, cutout_at (pf_meds f) iobj icut o s ->
        (before iobj icut i0 (k_cut x) -> written k psfs st f iobj icut o s) /\
        (before i0 (k_cut x) iobj icut -> untouched f pjunk iobj icut s) /\
        (iobj = i0 -> icut = k_cut x -> untouched f pjunk iobj icut s).
  Proof.
    intros E F H. destruct (keys_order _ _ _ _ N E) as (i0 & C0 & OR). exists i0. split; [exact C0|].
    pose proof tiles_all as TA. rewrite E in TA. destruct (tiles_split _ _ _ _ _ TA) as (m & T1 & T2).
    destruct (tiles_keys p_range _ _ _ T2) as (K2 & _). pose proof (K2 x (or_introl eq_refl)) as KX. unfold p_range in KX. cbn [fst snd] in KX.
    pose proof (tiles_le _ _ _ T1) as Lm. pose proof (tiles_le _ _ _ T2) as Lt.
    assert (LE : length pre = length arrs) by (clear -F; induction F; cbn; congruence).
    assert (TW : tiles 0 (map (fun ka => p_range (fst ka)) (combine pre arrs)) m).
    { rewrite <- (map_map fst p_range). clear -T1 LE. revert T1. assert (G : map fst (combine pre arrs) = pre).
      { revert arrs LE. induction pre as [|y pre IH]; intros [|a arrs] L; try discriminate; [reflexivity|]. cbn [combine map]. f_equal. apply IH. injection L as L. exact L. }
      rewrite G. auto. }
    assert (OW : Forall (fun ka => arr_ok (snd ka)) (combine pre arrs)).
    { clear -F OKA. induction F as [|kk a pre arrs H F IH]; cbn [combine]; constructor; [|exact IH]. cbn [snd]. eapply call_ok; exact H. }
    assert (ZJ : zlen (map pjunk (zrange tp)) = tp) by (rewrite zlen_map, zlen_zrange; lia).
    assert (Lz : m <= zlen (map pjunk (zrange tp))) by lia.
    destruct (puts _ _ _ _ _ TW (Z.le_refl 0) Lz OW H) as (G1 & G2 & G3).
    split; [lia|]. split; [lia|]. split; [lia|].
    assert (UN : forall iobj icut o s, cutout_at (pf_meds f) iobj icut o s -> In (o, icut, s) (x :: post) -> untouched f pjunk iobj icut s).
    { intros iobj icut o s C I P. specialize (K2 _ I). unfold p_range in K2. cbn [fst snd k_slot] in K2.
      eapply read_psf; [exact PC|exact C|lia|eapply sh_cut; exact C|exact P|lia| |].
      - rewrite zlen_map, zlen_zrange; lia.
      - rewrite zlen_map, zlen_zrange by lia. intros j Hj. rewrite G2 by lia. rewrite !zget_map, !zget_zrange by lia. reflexivity. }
    intros iobj icut o s C. destruct (OR _ _ _ _ C) as (O1 & O2). split; [|split].
    - intros B. specialize (O1 B).
      assert (IA : exists a, In ((o, icut, s), a) (combine pre arrs) /\ call_for k psfs st o s (Ok a)).
      { clear -F O1. induction F as [|kk a pre arrs H F IH]; [destruct O1|]. destruct O1 as [->|O1].
        - exists a. split; [left; reflexivity|exact H].
        - destruct (IH O1) as (b & B1 & B2). exists b. split; [right; exact B1|exact B2]. }
      destruct IA as (a & I & Ca). destruct (G3 _ I) as (S1 & S2 & S3 & S4). cbn [fst snd k_slot] in S1, S2, S3, S4.
      exists a. split; [exact Ca|]. split; [exact S2|]. split; [exact S3|]. intros P. pose proof (call_ok _ _ _ Ca) as OA. pose proof OA as (IO & _).
      destruct (tiles_keys p_range _ _ _ T1) as (K1 & _). specialize (K1 _ O1). unfold p_range in K1. cbn [fst snd k_slot] in K1.
      exists (imap (to_fl false) (a_im a)). split; [|split; [reflexivity|split; [reflexivity|]]].
      + unfold imap. rewrite S2, S3 in *. eapply read_psf; [exact PC|exact C|lia|eapply sh_cut; exact C|lia|lia| |exact S4].
        rewrite zlen_map. destruct IO as (_ & _ & ->). nia.
      + intros r c v Hv. exists (to_fl false v). split; [rewrite px_imap, Hv; reflexivity|]. eapply storable_kept; [exact OA|exact S1|].
        eapply CoaddFlLemmas2.px_In_dat; exact Hv.
    - intros B. eapply UN; [exact C|]. right. apply O2. exact B.
    - intros -> ->. eapply UN; [exact C|]. left. destruct C as (D1 & D2 & D3), C0 as (D4 & D5 & D6).
      rewrite D1 in D4. injection D4 as ->. rewrite D3 in D6. injection D6 as ->. destruct x as [[o' c'] s']. reflexivity.
  Qed.
End Stage.
