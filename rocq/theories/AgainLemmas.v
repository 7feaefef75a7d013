(** Lemmas on a maker asked to write a second time. *)
From Coq Require Import String Lia ZifyBool Sorted.
From Verif Require Import Base Img Types MakerLayout MakerWrite MakerFile SpecTiles SpecLayout SpecFile.
From Verif Require Import BaseLemmas LayoutLemmas StartLemmas BuildLemmas FileLemmas CatLemmas2 LocalLemmas.
From Verif Require CoaddLemmas2.
Open Scope Z_scope.

(** What a slot holds, but for the start row and the psf columns. *)
Definition same_view (s1 s2 : slot) : Prop :=
  s_file s2 = s_file s1 /\ s_orow s2 = s_orow s1 /\ s_ocol s2 = s_ocol s1 /\ s_osr s2 = s_osr s1 /\ s_osc s2 = s_osc s1 /\
  s_crow s2 = s_crow s1 /\ s_ccol s2 = s_ccol s1 /\
  s_dudrow s2 = s_dudrow s1 /\ s_dudcol s2 = s_dudcol s1 /\ s_dvdrow s2 = s_dvdrow s1 /\ s_dvdcol s2 = s_dvdcol s1.

Lemma describes_same c images o o' box s1 s2 : same_place o o' ->
  slot_describes c images o box s1 -> slot_describes c images o' box s2 -> s_file s2 = s_file s1 -> same_view s1 s2.
Proof.
  intros (P1 & P2 & P3 & P4 & _) (im & Z1 & A) (im' & Z2 & B) E. rewrite E in *. assert (im' = im) by congruence. subst im'.
  assert (EC : color_arg c (s_file s1) o' = color_arg c (s_file s1) o) by (unfold color_arg, obj_color; rewrite P3, P4; reflexivity).
  unfold spec_row, spec_col in *. rewrite EC, P1, P2 in B.
  destruct (w_pos (im_wcs im) (o_ra o) (o_dec o) (color_arg c (s_file s1) o)) as [col row].
  destruct A as (A1 & A2 & A3 & A4 & A5 & A6 & A7). destruct B as (B1 & B2 & B3 & B4 & B5 & B6 & B7). cbn [fst snd] in *.
  assert (s_orow s2 = s_orow s1) by congruence. assert (s_ocol s2 = s_ocol s1) by congruence.
  assert (s_osr s2 = s_osr s1) by congruence. assert (s_osc s2 = s_osc s1) by congruence.
  rewrite A7 in B7. inversion B7. unfold same_view. repeat split; congruence.
Qed.

(** * The layout loop from any catalog *)
Definition grown (c : lconf) (fs : list (Z * image)) (o0 o : obj) : Prop :=
  counted_up c fs o0 o /\ o_box o = o_box o0 /\
  forall k s, zget (o_slots o) k = Some s ->
    (k < o_ncut o0 \/ o_ncut o <= k -> zget (o_slots o0) k = Some s) /\
    (o_ncut o0 <= k < o_ncut o -> exists fi o' s0, zget (filter (accf c o0) fs) (k - o_ncut o0) = Some fi /\
       same_place o0 o' /\ o_box o' = o_box o0 /\ s = new_slot c (fst fi) (snd fi) o' s0).

Lemma grown_step c f im done o0 o : 0 <= o_ncut o0 -> grown c done o0 o -> (acc c f im o && (zlen (o_slots o) <=? o_ncut o)) = false ->
  grown c (done ++ [(f, im)]) o0 (if acc c f im o then add_cut c f im o else o).
Proof.
  intros N0 (C & B & S) K. pose proof (counted_trans c f im done o0 o C K) as C'. split; [exact C'|].
  destruct C as (P & L & N & R). pose proof (zlen_nonneg (filter (accf c o0) done)) as NN.
  pose proof (acc_same c f im o0 o P) as EA. rewrite EA in *.
  destruct (acc c f im o0) eqn:A; cbn [andb] in K.
  - unfold add_cut. destruct (nth_error (o_slots o) (Z.to_nat (o_ncut o))) as [s0|] eqn:E0.
    2:{ exfalso. apply nth_error_None in E0. unfold zlen in *. lia. }
    split; [exact B|]. cbn [o_slots o_ncut set_slots set_ncut o_box]. intros k s Hk. rewrite CoaddLemmas2.zget_upd in Hk by lia.
    rewrite filter_app. cbn [filter]. unfold accf at 2. cbn [fst snd]. rewrite A.
    destruct (k =? o_ncut o) eqn:Ek.
    + split; [lia|]. intros _. injection Hk as <-. exists (f, im), o, s0. split; [|split; [exact P|split; [exact B|reflexivity]]].
      rewrite zget_app. destruct (k - o_ncut o0 <? zlen (filter (accf c o0) done)) eqn:Y; [lia|].
      replace (k - o_ncut o0 - zlen (filter (accf c o0) done)) with 0 by lia. reflexivity.
    + destruct (S k s Hk) as (S1 & S2). split; [intros Y; apply S1; lia|]. intros Y. destruct S2 as (fi & o' & s1 & Z1 & Z2); [lia|].
      exists fi, o', s1. split; [|exact Z2]. rewrite zget_app. destruct (k - o_ncut o0 <? zlen (filter (accf c o0) done)) eqn:Y2; [exact Z1|lia].
  - split; [exact B|]. intros k s Hk. rewrite filter_app. cbn [filter]. unfold accf at 2. cbn [fst snd]. rewrite A, app_nil_r. apply S. exact Hk.
Qed.

Lemma grown_filter c fs f im cat0 cat : Forall2 (grown c fs) cat0 cat ->
  length (filter (acc c f im) cat) = length (filter (acc c f im) cat0) /\ length cat = length cat0.
Proof.
  induction 1 as [|a b l l' K F IH]; [split; reflexivity|]. cbn [filter length]. rewrite (acc_same c f im a b (proj1 (proj1 K))).
  destruct (acc c f im a); cbn [length]; lia.
Qed.

Lemma layout_file_grown c f im done cat0 cat : Forall (fun o => 0 <= o_ncut o) cat0 -> Forall2 (grown c done) cat0 cat ->
  layout_file c cat (f, im) =
  match file_err c cat0 f im with
  | Some e => Err e
  | None => if existsb (fun o => acc c f im o && (zlen (o_slots o) <=? o_ncut o)) cat then Err IndexError
            else Ok (map (fun o => if acc c f im o then add_cut c f im o else o) cat)
  end /\
  (existsb (fun o => acc c f im o && (zlen (o_slots o) <=? o_ncut o)) cat = false ->
   Forall2 (grown c (done ++ [(f, im)])) cat0 (map (fun o => if acc c f im o then add_cut c f im o else o) cat)).
Proof.
  intros N F. split.
  - rewrite layout_file_eq.
    2:{ intros o I _. clear -F I. induction F as [|a b l l' K F IH]; [contradiction|]. destruct I as [<-|I]; [|auto]. destruct K as ((_ & _ & _ & K) & _). lia. }
    cbn zeta. unfold file_err. cbn zeta. destruct (grown_filter c done f im cat0 cat F) as (E1 & E2). rewrite E1, E2.
    destruct (first_image_is_coadd c && (f =? 0) && force_into_coadd_bounds c && _); [reflexivity|].
    destruct (first_image_is_coadd c && check_in_coadd c && (f =? 0) && _); reflexivity.
  - intros E. revert N. induction F as [|a b l l' K F IH]; intros N; [constructor|]. cbn [existsb] in E. apply Bool.orb_false_iff in E. destruct E as (E1 & E2).
    inversion N; subst. cbn [map]. constructor; [apply grown_step; assumption|apply IH; assumption].
Qed.

Lemma files_grown c fs : forall done cat0 cat cat', Forall (fun o => 0 <= o_ncut o) cat0 -> Forall2 (grown c done) cat0 cat ->
  foldM (layout_file c) fs cat = Ok cat' -> Forall2 (grown c (done ++ fs)) cat0 cat'.
Proof.
  induction fs as [|[f im] fs IH]; intros done cat0 cat cat' N F H.
  - cbn in H. injection H as <-. rewrite app_nil_r. exact F.
  - cbn [foldM] in H. destruct (layout_file_grown c f im done cat0 cat N F) as (E & G). rewrite E in H.
    destruct (file_err c cat0 f im); [discriminate|]. destruct (existsb _ cat) eqn:X; [discriminate|]. cbn [bind] in H.
    replace (done ++ (f, im) :: fs) with ((done ++ [(f, im)]) ++ fs) by (rewrite <- app_assoc; reflexivity).
    eapply IH; [exact N|apply G; reflexivity|exact H].
Qed.

Lemma files_possible c fs : forall done cat0 cat, Forall (fun o => 0 <= o_ncut o) cat0 -> Forall2 (grown c done) cat0 cat ->
  (forall f im, In (f, im) fs -> file_err c cat0 f im = None) ->
  Forall (fun o => o_ncut o + zlen (filter (accf c o) (done ++ fs)) <= zlen (o_slots o)) cat0 ->
  exists cat', foldM (layout_file c) fs cat = Ok cat'.
Proof.
  induction fs as [|[f im] fs IH]; intros done cat0 cat N F HE HC; [eexists; reflexivity|].
  cbn [foldM]. destruct (layout_file_grown c f im done cat0 cat N F) as (E & G). rewrite E, (HE f im) by (left; reflexivity).
  assert (X : existsb (fun o => acc c f im o && (zlen (o_slots o) <=? o_ncut o)) cat = false).
  { clear -F HC. induction F as [|a b l l' K F IHF]; [reflexivity|]. inversion HC as [|? ? H1 H2]; subst. cbn [existsb]. rewrite (IHF H2).
    destruct K as ((P & L & NC & _) & _). rewrite (acc_same c f im a b P). destruct (acc c f im a) eqn:A; [|reflexivity]. cbn [andb].
    rewrite filter_app in H1. cbn [filter] in H1. unfold accf at 2 in H1. cbn [fst snd] in H1. rewrite A, zlen_app, zlen_cons in H1.
    pose proof (zlen_nonneg (filter (accf c a) fs)). lia. }
  rewrite X. cbn [bind]. eapply IH; [exact N|apply G; exact X| |].
  - intros f' im' I. apply HE. right. exact I.
  - rewrite <- app_assoc. exact HC.
Qed.

Lemma files_errors c fs : forall done cat0 cat e, Forall (fun o => 0 <= o_ncut o) cat0 -> Forall2 (grown c done) cat0 cat ->
  (forall f im, In (f, im) fs -> file_err c cat0 f im = None) ->
  foldM (layout_file c) fs cat = Err e -> e = IndexError.
Proof.
  induction fs as [|[f im] fs IH]; intros done cat0 cat e N F HE H; [discriminate|].
  cbn [foldM] in H. destruct (layout_file_grown c f im done cat0 cat N F) as (E & G). rewrite E, (HE f im) in H by (left; reflexivity).
  destruct (existsb _ cat) eqn:X; [cbn in H; congruence|]. cbn [bind] in H.
  eapply IH; [exact N|apply G; reflexivity| |exact H]. intros f' im' I. apply HE. right. exact I.
Qed.

Lemma grown_refl c o : 0 <= o_ncut o <= zlen (o_slots o) -> grown c [] o o.
Proof.
  intros H. split; [split; [repeat split|split; [reflexivity|split; [cbn; lia|exact H]]]|]. split; [reflexivity|].
  intros k s K. split; [intros _; exact K|lia].
Qed.
