(** The page of meds-view when the run ends early; the list of objects. *)
From Coq Require Import Lia Lqa ZifyBool ZifyNat.
From Verif Require Import Base BaseLemmas Img ImgLemmas Types Reader SpecTiles SpecLayout SpecFile BoundsM Composite Uberseg View SpecView.
From Verif Require Import ViewLemmas ViewLemmas2 ViewLemmas4.
From Verif Require CompareLemmas2.
Open Scope Z_scope.

Definition nofoot (l : list event) : Prop := ~ In HtmlFoot l.
Lemma nofoot_nil : nofoot []. Proof. intros []. Qed.
Lemma nofoot_app a b : nofoot a -> nofoot b -> nofoot (a ++ b).
Proof. intros A B H. apply in_app_or in H. destruct H; auto. Qed.
Lemma nofoot_bind {A B} (x : out A) (g : A -> out B) : nofoot (fst x) -> (forall a, nofoot (fst (g a))) -> nofoot (fst (obind x g)).
Proof. intros H G. unfold obind. destruct (snd x); cbn [fst]; [apply nofoot_app; auto|exact H]. Qed.
Lemma nofoot_omap {X Y} (g : X -> out Y) l : (forall x, nofoot (fst (g x))) -> nofoot (fst (omap g l)).
Proof. intros G. induction l; cbn [omap]; [exact nofoot_nil|]. apply nofoot_bind; [apply G|]. intros y. apply nofoot_bind; [exact IHl|]. intros; exact nofoot_nil. Qed.
Lemma nofoot_ofor {X} (g : X -> out unit) l : (forall x, nofoot (fst (g x))) -> nofoot (fst (ofor g l)).
Proof. intros G. induction l; cbn [ofor]; [exact nofoot_nil|]. apply nofoot_bind; [apply G|]. intros; exact IHl. Qed.
Lemma nofoot_oloop {X} (g : X -> out bool) l : (forall x, nofoot (fst (g x))) -> nofoot (fst (oloop g l)).
Proof. intros G. induction l; cbn [oloop]; [exact nofoot_nil|]. apply nofoot_bind; [apply G|]. intros [|]; [exact IHl|exact nofoot_nil]. Qed.
Lemma nofoot_finish file show d : nofoot (fst (finish file show d)).
Proof. rewrite finish_eq. destruct file as [[i t]|], show; cbn; intros H; repeat (destruct H as [H|H]; try discriminate); exact H. Qed.
Lemma nofoot_view file show t im : nofoot (fst (view file show t im)).
Proof. unfold view. do 2 (apply nofoot_bind; [exact nofoot_nil|intros ?]). apply nofoot_bind; [apply nofoot_finish|]. intros; exact nofoot_nil. Qed.
Lemma nofoot_mosaic file show c ts ims : nofoot (fst (view_mosaic file show c ts ims)).
Proof.
  unfold view_mosaic. destruct c.
  - apply nofoot_bind; [exact nofoot_nil|]. intros ?. apply nofoot_bind; [apply nofoot_view|]. intros; exact nofoot_nil.
  - apply nofoot_bind; [|intros; apply nofoot_finish]. apply nofoot_omap. intros x. do 3 (apply nofoot_bind; [exact nofoot_nil|intros ?]).
    apply nofoot_bind; [apply nofoot_view|]. intros; exact nofoot_nil.
Qed.

Section Page.
Variables (sd lg : Q -> Q) (fuel : nat) (fast : bool) (f : medsfile) (comb hc : bool).

Lemma nofoot_object types save show html quit i : nofoot (fst (view_object sd lg fuel fast f comb hc types save show html quit i)).
Proof.
  unfold view_object. apply nofoot_bind; [exact nofoot_nil|]. intros o. destruct (o_ncut o =? 0); [exact nofoot_nil|].
  apply nofoot_bind; [destruct html; cbn; [intros [H|[]]; discriminate|exact nofoot_nil]|intros _].
  apply nofoot_bind.
  { apply nofoot_ofor. intros t. apply nofoot_bind; [|intros _; destruct html; cbn; [intros [H|[]]; discriminate|exact nofoot_nil]].
    unfold plot_one. do 2 (apply nofoot_bind; [exact nofoot_nil|intros ?]). apply nofoot_mosaic. }
  intros _. apply nofoot_bind; [destruct html; cbn; [intros [H|[]]; discriminate|exact nofoot_nil]|intros _].
  destruct show; exact nofoot_nil.
Qed.

Lemma page_complete_iff types save show start end_ indices html answer :
  let r := go sd lg fuel fast f comb hc types save show start end_ indices html answer in
  In HtmlFoot (fst r) <-> html = true /\ snd r = Ok true.
Proof.
  cbv zeta. unfold go. set (save' := if html then true else save). destruct (negb save' && negb show) eqn:B.
  { cbn. split; [intros []|]. intros [-> H]. discriminate. }
  set (ids := get_indices f start end_ indices).
  set (L := oloop (fun p => view_object sd lg fuel fast f comb hc types save' show html (answer (fst p)) (snd p)) (List.combine (zrange (zlen ids)) ids)).
  assert (NL : nofoot (fst L)) by (apply nofoot_oloop; intros; apply nofoot_object).
  destruct L as [el rl]. cbn [fst] in NL.
  destruct html; unfold obind, emit, ret; cbn [fst snd app].
  - destruct rl as [b|e]; cbn [fst snd].
    + destruct b; cbn [fst snd app].
      * split; [auto|]. intros _. right. apply in_or_app. right. left. reflexivity.
      * split; [|intros [_ H]; discriminate]. intros [H|H]; [discriminate|]. rewrite app_nil_r in H. contradiction.
    + split; [|intros [_ H]; discriminate]. intros [H|H]; [discriminate|contradiction].
  - split; [|intros [H _]; discriminate]. intros H. exfalso. destruct rl as [b|e]; cbn [fst snd] in H; [|contradiction].
    destruct b; cbn [fst snd app] in H; rewrite ?app_nil_r in H; contradiction.
Qed.

Hypothesis WF : file_wf f.

(** The user quits after the first object. *)
Lemma quit_first types save start end_ indices answer i rest :
  Forall (drawable fuel fast f) types -> get_indices f start end_ indices = i :: rest -> has_cutouts f i -> answer 0 = true ->
  exists evs, go sd lg fuel fast f comb hc types save true start end_ indices true answer = (evs, Ok false) /\ page evs = HtmlHead :: page_row types i.
Proof.
  intros F E (o & HO & N) A. unfold go. rewrite E. cbn [negb andb].
  assert (ER : List.combine (zrange (zlen (i :: rest))) (i :: rest) = (0, i) :: List.combine (map (Z.add 1) (zrange (zlen rest))) rest).
  { unfold zrange, zlen. rewrite !Nat2Z.id. cbn [length seq map List.combine]. f_equal. f_equal. rewrite <- seq_shift, !map_map. apply map_ext. intros; lia. }
  rewrite ER. cbn [oloop fst snd].
  destruct (object_ok sd lg fuel fast f comb hc WF types true true true (answer 0) i o HO N F) as (e1 & E1 & P1 & _).
  rewrite A in *. cbn [negb] in E1. rewrite E1. unfold obind, emit, ret. cbn [fst snd app].
  eexists. split; [reflexivity|]. rewrite !app_nil_r. unfold page in *. cbn [filter]. rewrite P1. reflexivity.
Qed.

(** One index beyond the last object. *)
Lemma beyond_end types save start end_ indices ids i answer :
  Forall (drawable fuel fast f) types -> get_indices f start end_ indices = ids ++ [i] -> Forall (fun j => 0 <= j < zlen (m_cat f)) ids -> zlen (m_cat f) <= i ->
  exists evs seen, go sd lg fuel fast f comb hc types save false start end_ indices true answer = (evs, Err IndexError) /\
    restricted (has_cutouts f) ids seen /\ page evs = HtmlHead :: flat_map (page_row types) seen.
Proof.
  intros F E R I. unfold go. rewrite E. cbn [negb andb].
  assert (ER : exists ns n, List.combine (zrange (zlen (ids ++ [i]))) (ids ++ [i]) = List.combine ns ids ++ [(n, i)] /\ length ns = length ids).
  { exists (zrange (zlen ids)), (zlen ids). rewrite zlen_app. change (zlen [i]) with 1. rewrite CompareLemmas2.zrange_S by apply zlen_nonneg.
    split; [|rewrite zrange_length; unfold zlen; lia].
    assert (LL : length (zrange (zlen ids)) = length ids) by (rewrite zrange_length; unfold zlen; lia).
    revert LL. generalize (zrange (zlen ids)). generalize (zlen ids). clear. intros n l. revert ids. induction l as [|a l IH]; intros [|b ids] H; try discriminate; [reflexivity|].
    cbn. f_equal. apply IH. cbn in H. lia. }
  destruct ER as (ns & n & -> & LL).
  destruct (loop_ok sd lg fuel fast f comb hc WF types true false true answer (List.combine ns ids) F) as (evs & seen & E1 & RS & P & _).
  { discriminate. }
  { apply Forall_forall. intros [m j] H. cbn [snd]. rewrite Forall_forall in R. apply R. eapply in_combine_r; exact H. }
  rewrite snd_combine in RS by exact LL.
  assert (EL : forall (g : Z * Z -> out bool) l e x, oloop g l = (e, Ok true) -> g x = ([], Err IndexError) -> oloop g (l ++ [x]) = (e, Err IndexError)).
  { clear. intros g l. induction l as [|y l IH]; intros e x H HX; cbn [oloop app] in *.
    - injection H as <-. unfold obind. rewrite HX. reflexivity.
    - unfold obind in *. destruct (g y) as [ey ry]. cbn [fst snd] in *. destruct ry as [b|]; [|discriminate]. destruct b; cbn [fst snd ret] in *; [|discriminate].
      destruct (oloop g l) as [el rl] eqn:EL. cbn [fst snd] in H. injection H as H1 H2. subst rl. rewrite (IH el x eq_refl HX). cbn [fst snd]. rewrite H1. reflexivity. }
  rewrite (EL _ _ _ (n, i) E1).
  - unfold obind, emit. cbn [fst snd app]. exists (HtmlHead :: evs), seen. split; [reflexivity|]. split; [exact RS|]. unfold page in *. cbn [filter]. rewrite P. reflexivity.
  - cbn [fst snd]. unfold view_object, lift, obind. cbn [fst snd].
    assert (py_index (m_cat f) i = Err IndexError) as ->; [|reflexivity]. unfold py_index. pose proof (zlen_nonneg (m_cat f)). replace (i <? 0) with false by lia.
    destruct (zget (m_cat f) i) eqn:Z; [apply zget_Some_range in Z; lia|reflexivity].
Qed.
End Page.

Lemma arange_get a b k : 0 <= k < b - a -> zget (arange a b) k = Some (a + k).
Proof. intros H. unfold arange. rewrite zget_map, zget_zrange by exact H. reflexivity. Qed.
Lemma arange_len a b : zlen (arange a b) = Z.max 0 (b - a).
Proof. unfold arange. rewrite zlen_map. destruct (Z.le_gt_cases 0 (b - a)); [rewrite zlen_zrange; lia|]. unfold zrange. replace (Z.to_nat (b - a)) with 0%nat by lia. cbn. lia. Qed.

(** From the first to the last named object, both included. *)
Lemma indices_ok f start end_ : let ids := get_indices f start end_ None in
  let a := match start with Some a => a | None => 0 end in
  let b := match end_ with Some b => b | None => zlen (m_cat f) - 1 end in
  zlen ids = Z.max 0 (b - a + 1) /\ forall k, 0 <= k <= b - a -> zget ids k = Some (a + k).
Proof.
  cbv zeta. unfold get_indices. destruct start as [a|], end_ as [b|]; (split; [rewrite arange_len; lia|intros k Hk; apply arange_get; lia]).
Qed.

Lemma no_output sd lg fuel fast f comb hc types start end_ indices answer :
  go sd lg fuel fast f comb hc types false false start end_ indices false answer = ([], Err RuntimeError).
Proof. reflexivity. Qed.
