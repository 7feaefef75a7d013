(** Lemmas on a maker asked to write a second time: the layout. *)
From Coq Require Import String Lia ZifyBool Sorted.
From Verif Require Import Base Img Types MakerLayout MakerWrite MakerFile SpecTiles SpecLayout SpecFile.
From Verif Require Import BaseLemmas LayoutLemmas StartLemmas BuildLemmas FileLemmas CatLemmas2 LocalLemmas AgainLemmas.
Open Scope Z_scope.

Lemma laid_out_place c images ns o o' : laid_out c images ns o o' -> same_place o o'.
Proof. intros (A & _ & B & C & D & E & _). unfold same_place. auto. Qed.

Lemma ssorted_zrange n : StronglySorted Z.lt (zrange n).
Proof. unfold zrange. apply ssorted_seq. Qed.

(** The images of the slots are the accepting ones. *)
Lemma laid_out_hits c images ns o o' : laid_out c images ns o o' ->
  map fst (filter (accf c o') (files images)) = map s_file (firstn (Z.to_nat (o_ncut o')) (o_slots o')).
Proof.
  intros H. pose proof (laid_out_place _ _ _ _ _ H) as P.
  destruct H as (_ & _ & _ & _ & _ & _ & _ & _ & _ & _ & S & M & _).
  apply sorted_unique; [|exact S|].
  - apply ssorted_filter_map. rewrite map_fst_files. apply ssorted_zrange.
  - intros f. rewrite M. rewrite in_map_iff. split.
    + intros ((f' & im) & E & I). cbn in E. subst f'. apply filter_In in I. destruct I as (I & A). exists im. split; [apply In_files; exact I|].
      apply acc_accepted. rewrite <- (acc_same c f im o o' P). exact A.
    + intros (im & Z1 & A). exists (f, im). split; [reflexivity|]. apply filter_In. split; [apply In_files; exact Z1|].
      unfold accf. cbn [fst snd]. rewrite (acc_same c f im o o' P). apply acc_accepted. exact A.
Qed.

Lemma laid_out_count c images ns o o' : laid_out c images ns o o' -> zlen (filter (accf c o') (files images)) = o_ncut o'.
Proof.
  intros H. pose proof (laid_out_hits _ _ _ _ _ H) as E. apply (f_equal (@length Z)) in E. rewrite !map_length, firstn_length in E.
  destruct H as (_ & _ & _ & _ & _ & _ & _ & _ & L & N & _). unfold zlen in *. lia.
Qed.

(** Row of the second catalog. *)
Definition rewritten (o1 o2 : obj) : Prop :=
  same_place o1 o2 /\ o_box o2 = o_box o1 /\ o_ncut o1 <= 1 /\ o_ncut o2 = 2 * o_ncut o1 /\ o_ncut o2 <= zlen (o_slots o2) /\
  forall k s, zget (o_slots o2) k = Some s -> k < o_ncut o2 -> exists s1, zget (o_slots o1) 0 = Some s1 /\ same_view s1 s.

Lemma laid_trim c images input objs ns cat : selected c images input objs -> objs <> [] -> Forall2 (laid_out c images ns) objs cat ->
  trim_cat c images cat = Ok cat.
Proof.
  intros S NE F. rewrite trim_cat_eq. unfold selected in S. destruct (first_image_is_coadd c && trim_to_coadd c); [|reflexivity].
  destruct S as (im & Z0 & R). destruct images as [|im' images]; [discriminate|]. change (zget (im' :: images) 0) with (Some im') in Z0. injection Z0 as ->.
  assert (A : Forall (fun o => acc c 0 im o = true) objs).
  { clear -R. induction R; auto. constructor; [apply acc_accepted; assumption|assumption]. }
  assert (E : filter (acc c 0 im) cat = cat).
  { clear -F A. induction F as [|a b l l' K F IH]; [reflexivity|]. inversion A as [|? ? A1 A2]; subst. cbn [filter].
    rewrite (acc_same c 0 im a b (laid_out_place _ _ _ _ _ K)), A1, IH; auto. }
  rewrite E. destruct cat; [inversion F; subst; contradiction|]. reflexivity.
Qed.

Section again.
  Variables (c : lconf) (images : list image) (input objs cat1 : list obj) (ns : Z).
  Hypothesis Sel : selected c images input objs.
  Hypothesis NE : objs <> [].
  Hypothesis L1 : Forall2 (laid_out c images ns) objs cat1.
  Hypothesis Att : ns = 2 \/ exists o', In o' cat1 /\ o_ncut o' = ns.
  Hypothesis Two : 2 <= ns.
  Hypothesis FE : forall im, zget images 0 = Some im -> file_err c objs 0 im = None.

  Let cat1_facts : Forall (fun o => 0 <= o_ncut o <= zlen (o_slots o) /\ zlen (o_slots o) = ns /\
    zlen (filter (accf c o) (files images)) = o_ncut o) cat1.
  Proof.
    pose proof L1 as L0. clear -L0. induction L0 as [|a b l l' K F IH]; [constructor|]. constructor; [|exact IH]. pose proof (laid_out_count _ _ _ _ _ K).
    destruct K as (_ & _ & _ & _ & _ & _ & _ & _ & L & N & _). lia.
  Qed.

  Let refl1 : Forall2 (grown c []) cat1 cat1.
  Proof. pose proof cat1_facts as F. clear -F. induction F as [|o l K F IH]; constructor; [|exact IH]. apply grown_refl. tauto. Qed.

  Let nonneg1 : Forall (fun o => 0 <= o_ncut o) cat1.
  Proof. eapply Forall_impl; [|exact cat1_facts]. cbn. lia. Qed.

  Let ncut_small cat2 : Forall2 (grown c (files images)) cat1 cat2 -> Forall (fun o => o_ncut o <= 1) cat1.
  Proof.
    intros G. assert (B : Forall (fun o => 2 * o_ncut o <= ns) cat1).
    { pose proof cat1_facts as F. clear -F G. induction G as [|a b l l' K G IH]; [constructor|]. inversion F as [|? ? F1 F2]; subst. constructor; [|apply IH; assumption].
      destruct K as ((_ & L & N & R) & _). lia. }
    rewrite Forall_forall in *. intros o I. destruct Att as [E|(o' & I' & E)].
    - specialize (B o I). lia.
    - specialize (B o' I'). lia.
  Qed.

  Lemma again_inv cat2 n2 : build_layout c images cat1 = Ok (cat2, n2) ->
    Forall2 rewritten cat1 cat2 /\ tiles 0 (cut_ranges cat2) n2 /\ Forall (fun o => 0 <= o_ncut o <= zlen (o_slots o)) cat2.
  Proof.
    intros H. unfold build_layout in H. rewrite (laid_trim c images input objs ns cat1 Sel NE L1) in H. cbn [bind] in H.
    apply bind_ok in H. destruct H as (ca & H1 & H). apply bind_ok in H. destruct H as (cb & H2 & H3).
    pose proof (files_grown c (files images) [] cat1 cat1 ca nonneg1 refl1 H1) as G. cbn [app] in G.
    pose proof (ncut_small ca G) as SM.
    assert (NEa : ca <> []) by (intros ->; discriminate).
    rewrite make_resized_eq in H2 by exact NEa. injection H2 as <-.
    assert (G2 : Forall2 rewritten cat1 (map (fun o => set_slots o (firstn (Z.to_nat (nslots_of ca)) (o_slots o))) ca)).
    { assert (IN : forall o, In o ca -> o_ncut o <= nslots_of ca) by (intros; apply nslots_ge; assumption).
      revert IN. generalize (nslots_of ca). intros m IN. pose proof cat1_facts as F. clear -G IN SM F L1.
      revert objs L1. induction G as [|a b l l' K G IH]; intros ob L1; [constructor|]. cbn [map].
      inversion SM as [|? ? S1 S2]; subst. inversion F as [|? ? F1 F2]; subst. inversion L1 as [|ob1 ? obs ? LO LO2]; subst. clear SM F L1.
      constructor; [|apply (IH S2 (fun o O => IN o (or_intror O)) F2 obs LO2)].
      destruct K as ((P & L & N & R) & B & S). pose proof (IN b (or_introl eq_refl)) as M.
      split; [exact P|]. split; [exact B|]. split; [exact S1|]. cbn [o_ncut o_slots set_slots]. split; [lia|].
      split; [unfold zlen in *; rewrite firstn_length; lia|].
      intros k s Hk Kn. pose proof (zget_Some_range _ _ _ Hk) as RK. rewrite zget_firstn in Hk.
      destruct (k <? m) eqn:KM; [|discriminate].
      destruct (S k s Hk) as (SA & SB). pose proof LO as LO'.
      destruct LO' as (_ & _ & _ & _ & _ & _ & _ & _ & LL & NN & _ & _ & DD).
      destruct (Z.eq_dec k 0) as [->|K0].
      - exists s. split; [apply SA; lia|]. unfold same_view. repeat split; reflexivity.
      - assert (k = 1) by lia. subst k. assert (o_ncut a = 1) by lia.
        destruct (zget_range_Some (o_slots a) 0) as (s1 & Z1); [lia|]. exists s1. split; [exact Z1|].
        destruct SB as (fi & o' & s0 & ZF & PO & BO & ->); [lia|].
        assert (zget_fi : In fi (files images)) by (apply zget_In in ZF; apply filter_In in ZF; exact (proj1 ZF)).
        destruct fi as (f & im). cbn [fst snd].
        assert (FI : s_file s1 = f).
        { pose proof (laid_out_hits _ _ _ _ _ LO) as HH. rewrite H in ZF. replace (1 - 1) with 0 in ZF by lia.
          assert (X : zget (map fst (filter (accf c a) (files images))) 0 = Some f) by (rewrite zget_map, ZF; reflexivity).
          rewrite HH, zget_map, zget_firstn in X. rewrite H in X. change (0 <? 1) with true in X. cbn iota in X. rewrite Z1 in X. cbn in X. congruence. }
        destruct (DD 0 s1 Z1) as (D1 & _). specialize (D1 ltac:(lia)).
        eapply (describes_same c images ob1 o' (o_box a)); [|exact D1| |rewrite new_slot_file; symmetry; exact FI].
        + pose proof (laid_out_place _ _ _ _ _ LO) as PL. unfold same_place in *. intuition congruence.
        + rewrite <- BO. apply new_slot_describes; auto. apply In_files. exact zget_fi. }
    revert H3 G2. generalize (map (fun o => set_slots o (firstn (Z.to_nat (nslots_of ca)) (o_slots o))) ca). intros l H3 G2.
    assert (W : Forall (fun o => 0 <= o_ncut o <= zlen (o_slots o)) l).
    { pose proof nonneg1 as N1. clear -G2 N1. induction G2 as [|a b l0 l' K F IH]; constructor; [|inversion N1; subst; auto].
      inversion N1; subst. destruct K as (_ & _ & _ & K1 & K2 & _). lia. }
    rewrite set_start_rows_eq in H3 by exact W. injection H3 as <- <-.
    split; [|split].
    - clear -G2. cut (forall row, Forall2 rewritten cat1 (started_cat row l)); [intros X; apply X|]. induction G2 as [|a b l0 l' K F IH]; intros row; cbn [started_cat]; constructor; [|apply IH].
      destruct K as (K1 & K2 & K3 & K4 & K5 & K6). split; [exact K1|]. split; [exact K2|]. split; [exact K3|]. split; [exact K4|]. unfold started. cbn [o_ncut o_slots set_slots].
      split; [unfold zlen in *; rewrite starts_length; exact K5|]. intros k s Hk Kn. pose proof (zget_Some_range _ _ _ Hk) as RK.
      unfold zget in Hk. destruct (k <? 0) eqn:E; [discriminate|]. rewrite starts_nth in Hk. destruct (nth_error (o_slots b) (Z.to_nat k)) as [s'|] eqn:E2; [|discriminate].
      destruct (K6 k s') as (s1 & Z1 & V); [unfold zget; rewrite E; exact E2|exact Kn|]. exists s1. split; [exact Z1|]. injection Hk as <-.
      destruct (_ <? _)%nat; exact V.
    - pose proof (started_cat_tiles l W 0) as T. rewrite zsum_eq. exact T.
    - clear -W. cut (forall row, Forall (fun o => 0 <= o_ncut o <= zlen (o_slots o)) (started_cat row l)); [intros X; apply X|]. induction W as [|o l K W IH]; intros row; cbn [started_cat]; constructor; [|apply IH].
      unfold started. cbn [o_ncut o_slots set_slots]. unfold zlen in *. rewrite starts_length. exact K.
  Qed.

  Lemma again_small cat2 n2 : build_layout c images cat1 = Ok (cat2, n2) -> Forall (fun o => o_ncut o <= 1) cat1.
  Proof.
    intros H. apply again_inv in H. destruct H as (H & _). clear -H. induction H as [|a b l l' K F IH]; constructor; auto. destruct K as (_ & _ & K & _). exact K.
  Qed.

  Let no_file_err : forall f im, In (f, im) (files images) -> file_err c cat1 f im = None.
  Proof.
    intros f im I. apply In_files in I. destruct (Z.eq_dec f 0) as [->|NZ].
    - specialize (FE im I). unfold file_err in *. cbn zeta in *.
      assert (X : length (filter (acc c 0 im) cat1) = length (filter (acc c 0 im) objs) /\ length cat1 = length objs).
      { pose proof L1 as L0. clear -L0. induction L0 as [|a b l l' K F IH]; [split; reflexivity|]. cbn [filter length]. rewrite (acc_same c 0 im a b (laid_out_place _ _ _ _ _ K)).
        destruct (acc c 0 im a); cbn [length]; lia. }
      destruct X as (X1 & X2). rewrite X1, X2. exact FE.
    - unfold file_err. cbn zeta. replace (f =? 0) with false by lia. rewrite !Bool.andb_false_r. reflexivity.
  Qed.

  Let finish ca : foldM (layout_file c) (files images) cat1 = Ok ca ->
    exists r, (let* cat2 := make_resized ca in set_start_rows cat2) = Ok r.
  Proof.
    intros E. assert (F : Forall2 (grown c (files images)) cat1 ca) by (apply (files_grown c (files images) [] cat1 cat1 ca nonneg1 refl1 E)).
    assert (NEc : ca <> []).
    { intros ->. pose proof L1 as L0. assert (cat1 = []) as X by (inversion F; reflexivity). rewrite X in L0. inversion L0; subst. contradiction. }
    rewrite make_resized_eq by exact NEc. cbn [bind]. rewrite set_start_rows_eq; [eexists; reflexivity|].
    apply Forall_forall. intros o I. apply in_map_iff in I. destruct I as (o' & <- & I). cbn [o_ncut o_slots set_slots]. pose proof (nslots_ge ca o' I).
    assert (0 <= o_ncut o' <= zlen (o_slots o')) by (clear -F I; induction F as [|a b l l' K F IH]; [contradiction|destruct I as [<-|I]; [destruct K as ((_ & _ & _ & K) & _); exact K|auto]]).
    unfold zlen in *. rewrite firstn_length. lia.
  Qed.

  Lemma again_possible : Forall (fun o => o_ncut o <= 1) cat1 -> exists r, build_layout c images cat1 = Ok r.
  Proof.
    intros SM. unfold build_layout. rewrite (laid_trim c images input objs ns cat1 Sel NE L1). cbn [bind].
    destruct (files_possible c (files images) [] cat1 cat1 nonneg1 refl1 no_file_err) as (ca & E).
    - cbn [app]. pose proof cat1_facts as F. rewrite Forall_forall in *. intros o I. specialize (F o I). specialize (SM o I). lia.
    - pose proof (finish ca E) as R. unfold files in E. rewrite E. cbn [bind]. exact R.
  Qed.

  Lemma again_error e : build_layout c images cat1 = Err e -> e = IndexError.
  Proof.
    unfold build_layout. rewrite (laid_trim c images input objs ns cat1 Sel NE L1). cbn [bind]. intros H.
    destruct (foldM (layout_file c) (combine (zrange (zlen images)) images) cat1) as [ca|e'] eqn:E.
    - cbn [bind] in H. destruct (finish ca E) as (r & R). congruence.
    - cbn [bind] in H. assert (e' = e) by congruence. subst e'. eapply (files_errors c (files images) [] cat1 cat1); [exact nonneg1|exact refl1|exact no_file_err|exact E].
  Qed.
End again.
