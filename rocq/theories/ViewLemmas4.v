(** The run of meds-view over the objects. *)
From Coq Require Import Lia Lqa ZifyBool ZifyNat.
From Verif Require Import Base BaseLemmas Img ImgLemmas Types Reader SpecTiles SpecLayout SpecFile BoundsM Composite Uberseg View SpecView.
From Verif Require Import ViewLemmas ViewLemmas2.
From Verif Require ReadLemmas.
Open Scope Z_scope.

Lemma obind_ok {A B} (x : out A) (g : A -> out B) e1 a e2 r : x = (e1, Ok a) -> g a = (e2, r) -> obind x g = (e1 ++ e2, r).
Proof. intros -> E. unfold obind. cbn [fst snd]. rewrite E. reflexivity. Qed.
Lemma obind_lift {A B} (x : res A) (g : A -> out B) a : x = Ok a -> obind (lift x) g = g a.
Proof. intros ->. unfold obind, lift. cbn [fst snd]. destruct (g a); reflexivity. Qed.
Lemma obind_ret {A B} (a : A) (g : A -> out B) : obind (ret a) g = g a.
Proof. apply obind_lift. reflexivity. Qed.

(** * Last writes *)
Lemma left_in_app a b i t d : left_in (a ++ b) i t d -> left_in a i t d \/ left_in b i t d.
Proof.
  intros (u & v & E & N). revert u E. induction a as [|x a IH]; intros u E; [right; exists u, v; auto|].
  destruct u as [|y u]; cbn in E; injection E as -> E.
  - left. exists [], a. split; [reflexivity|]. rewrite <- E in N. intros H. apply N. apply Exists_app. left. exact H.
  - destruct (IH u E) as [(p & q & -> & H)|H]; [left; exists (y :: p), q; auto|right; exact H].
Qed.
Lemma vtype_dec (a b : vtype) : {a = b} + {a <> b}.
Proof. repeat decide equality. Qed.
Lemma left_in_exists evs i t : (exists d, left_in evs i t d) <-> Exists (same_name i t) evs.
Proof.
  split.
  - intros (d & a & b & -> & _). apply Exists_app. right. left. exists d. reflexivity.
  - induction evs as [|e evs IH]; intros H; [inversion H|].
    assert (D : Exists (same_name i t) evs \/ ~ Exists (same_name i t) evs).
    { clear IH H. induction evs as [|x evs IH]; [right; intros H; inversion H|]. destruct IH as [IH|IH]; [left; right; exact IH|].
      assert (DX : same_name i t x \/ ~ same_name i t x).
      { destruct x as [i' t' d'| | | | | |]; [|right; intros (dd & E); discriminate E ..].
        destruct (vtype_dec t' t) as [->|NT]; [|right; intros (d & E); congruence].
        destruct (Z.eq_dec i' i) as [->|NI]; [left; exists d'; reflexivity|right; intros (d & E); congruence]. }
      destruct DX as [DX|DX]; [left; left; exact DX|]. right. intros H. inversion H; contradiction. }
    destruct D as [D|D].
    + destruct (IH D) as (d & a & b & -> & N). exists d, (e :: a), b. auto.
    + inversion H as [? ? (d & ->)|]; subst; [|contradiction]. exists d, [], evs. auto.
Qed.
Lemma page_app a b : page (a ++ b) = page a ++ page b.
Proof. apply filter_app. Qed.
Lemma no_write_left evs i t d : Forall (fun e => forall i t d, e <> WriteFile i t d) evs -> ~ left_in evs i t d.
Proof. intros F (a & b & -> & _). rewrite Forall_forall in F. apply (F (WriteFile i t d)) with (i := i) (t := t) (d := d); [apply in_elt|reflexivity]. Qed.

Definition quiet (e : event) : Prop := forall i t d, e <> WriteFile i t d.
(** Writes under one name, the last of them of [d]. *)
Lemma left_in_block pre post i t d : Forall (fun e => quiet e \/ same_name i t e) pre -> Forall quiet post ->
  forall i' t' d', left_in (pre ++ WriteFile i t d :: post) i' t' d' -> i' = i /\ t' = t /\ d' = d.
Proof.
  intros F1 F2 i' t' d' H. destruct H as (a & b & E & N). revert a E. induction pre as [|x pre IH]; intros a E.
  - destruct a as [|y a]; cbn in E; [injection E as -> -> -> _; auto|]. injection E as _ E. exfalso.
    rewrite E in F2. apply Forall_elt in F2. apply (F2 i' t' d'). reflexivity.
  - inversion F1 as [|? ? X1 X2]; subst. destruct a as [|y a]; cbn in E; injection E as E1 E2; [|exact (IH X2 a E2)]. subst x b.
    exfalso. destruct X1 as [X1|(d'' & X1)]; [apply (X1 i' t' d'); reflexivity|]. injection X1 as -> -> ->.
    apply N. apply Exists_app. right. left. exists d. reflexivity.
Qed.

(** * Drawing *)
Lemma img_dat {A} (im : img A) h w : img_ok im -> nr im = h -> nc im = w -> 0 < h -> 0 < w -> dat im <> [].
Proof. intros (_ & _ & L) <- <- H1 H2 E. rewrite E in L. change (zlen (@nil A)) with 0 in L. nia. Qed.

Lemma np_max_ok l : l <> [] -> exists m, np_max l = Ok m.
Proof. destruct l; [congruence|]. intros _. eexists. reflexivity. Qed.

Lemma view_ok file show t im h w : img_ok im -> nr im = h -> nc im = w -> 0 < h -> 0 < w ->
  exists s, view file show t im = (fst (finish file show (Plot t s)), Ok s) /\ rescaled im s.
Proof.
  intros O H W PH PW. unfold view, linear_scale. destruct (np_max_ok _ (img_dat im h w O H W PH PW)) as (m & EM). rewrite EM. cbn [bind].
  set (g := fun x => fclip (fmul x (finv m))). unfold lift at 1. unfold obind at 1. cbn [fst snd app].
  unfold transpose. change (nr (imap g im)) with (nr im). change (nc (imap g im)) with (nc im).
  destruct (tab2M_spec (nc im) (nr im) (fun r c => px_res (imap g im) c r) (fun r c => px (imap g im) c r)) as (s & E & Os & Ns & Cs & P).
  { apply O. } { apply O. }
  { intros r c Hr Hc. destruct (px_in (imap g im) c r) as (x & Hx); [apply imap_ok; exact O|exact Hc|exact Hr|]. exists x. split; [apply px_res_some|]; exact Hx. }
  rewrite E. exists s. split.
  - unfold lift, obind, ret. cbn [fst snd app]. destruct file as [[i v]|]; destruct show; reflexivity.
  - split; [exact Ns|]. split; [exact Cs|]. exists m. split; [exact EM|]. intros r c x Hx. apply px_Some_range in Hx as R. rewrite P by lia. rewrite px_imap, Hx. reflexivity.
Qed.

Lemma finish_eq file show d : finish file show d =
  ((match file with Some (i, t) => [WriteFile i t d] | None => [] end) ++ (if show then [ShowWindow d] else []), Ok tt).
Proof. destruct file as [[i t]|]; destruct show; reflexivity. Qed.

(** * The images to draw *)
Lemma mapM_shape {X} (g : X -> res (img fv)) (l : list X) h w : 0 < h -> 0 < w ->
  (forall x, In x l -> exists im, g x = Ok im /\ img_ok im /\ nr im = h /\ nc im = w) ->
  exists ims, mapM g l = Ok ims /\ zlen ims = zlen l /\ all_shape h w ims.
Proof.
  intros PH PW H. induction l as [|x l IH]; [exists []; repeat split; auto; constructor|].
  destruct (H x (or_introl eq_refl)) as (im & E & O). destruct IH as (ims & EI & L & (_ & _ & F)); [intros y Hy; apply H; right; exact Hy|].
  exists (im :: ims). cbn [mapM]. rewrite E. cbn [bind]. rewrite EI. cbn [bind]. split; [reflexivity|]. rewrite !zlen_cons, L. split; [reflexivity|].
  split; [exact PH|]. split; [exact PW|]. constructor; [exact O|exact F].
Qed.
Lemma map_shape (g : img Q -> img fv) (l : list (img Q)) h w :
  (forall im, In im l -> img_ok im -> img_ok (g im) /\ nr (g im) = nr im /\ nc (g im) = nc im) ->
  all_shape h w l -> all_shape h w (map g l).
Proof.
  intros H (PH & PW & F). split; [exact PH|]. split; [exact PW|]. rewrite Forall_forall in *. intros y Hy. apply in_map_iff in Hy.
  destruct Hy as (x & <- & Hx). destruct (F x Hx) as (A & B & C). destruct (H x Hx A) as (A' & B' & C'). rewrite B', C'. auto.
Qed.

Lemma cutout_list_shape f i o t m : file_wf f -> zget (m_cat f) i = Some o -> 0 < o_ncut o -> ext_find (m_ext f) t = Some m ->
  exists l, get_cutout_list f i t = Ok l /\ zlen l = o_ncut o /\ all_shape (o_box o) (o_box o) l.
Proof.
  intros W HO N HM. destruct (ReadLemmas.mosaic_blocks f i o t m W HO N HM) as (mos & l & _ & _ & _ & _ & E & L & H).
  exists l. split; [exact E|]. split; [exact L|].
  assert (0 < o_box o). { destruct W as [W _]. rewrite Forall_forall in W. apply (W o (zget_In _ _ _ HO)). }
  split; [assumption|]. split; [assumption|]. apply Forall_forall. intros im Hi. apply In_zget in Hi. destruct Hi as (k & Hk).
  pose proof (zget_Some_range _ _ _ Hk). destruct (H k) as (im' & _ & Hk' & A & B & C & _); [lia|]. rewrite Hk in Hk'. injection Hk' as <-. auto.
Qed.

Lemma prepare_image_ok sd im wt h w : img_ok im -> nr im = h -> nc im = w -> img_ok wt -> nr wt = h -> nc wt = w -> 0 < h -> 0 < w ->
  exists p, prepare_image sd im wt = Ok p /\ img_ok p /\ nr p = h /\ nc p = w.
Proof.
  intros O1 H1 W1 O2 H2 W2 PH PW. unfold prepare_image. destruct (np_qmax_ok (dat wt) (img_dat wt h w O2 H2 W2 PH PW)) as (q & -> & _). cbn [bind].
  destruct (qltb 0 q).
  - destruct (np_max_ok (dat (imap (fun x => fadd (Fin x) (sd q)) im))) as (m & ->).
    { apply (img_dat _ h w); auto. apply imap_ok; exact O1. }
    cbn [bind]. eexists. split; [reflexivity|]. split; [apply imap_ok, imap_ok; exact O1|]. auto.
  - eexists. split; [reflexivity|]. split; [apply imap_ok; exact O1|]. auto.
Qed.
Lemma prepare_psf_ok lg im h w : img_ok im -> nr im = h -> nc im = w -> 0 < h -> 0 < w ->
  exists p, prepare_psf lg im = Ok p /\ img_ok p /\ nr p = h /\ nc p = w.
Proof.
  intros O1 H1 W1 PH PW. unfold prepare_psf.
  destruct (np_qmin_ok (dat (imap (fun x => lg (qmax2 x (1 # 1000000))) im))) as (q & -> & _).
  { apply (img_dat _ h w); auto. apply imap_ok; exact O1. }
  cbn [bind]. match goal with |- context [np_max ?l] => destruct (np_max_ok l) as (m & ->) end.
  { apply (img_dat _ h w); auto. apply imap_ok, imap_ok; exact O1. }
  cbn [bind]. eexists. split; [reflexivity|]. split; [apply imap_ok, imap_ok, imap_ok; exact O1|]. auto.
Qed.

Section Run.
Variables (sd lg : Q -> Q) (fuel : nat) (fast : bool) (f : medsfile) (comb hc : bool).
Hypothesis WF : file_wf f.

Lemma images_of_ok i o t : zget (m_cat f) i = Some o -> 0 < o_ncut o -> drawable fuel fast f t ->
  exists ims h w, images_of sd lg fuel fast f i t = Ok ims /\ zlen ims = o_ncut o /\ all_shape h w ims.
Proof.
  intros HO N D. destruct t as [|[|t]]; cbn [drawable] in D; unfold images_of.
  - destruct (D i o HO N) as (l & -> & L & h & w & S). cbn [bind]. exists (map (imap Fin) l), h, w. split; [reflexivity|]. rewrite zlen_map. split; [exact L|].
    apply map_shape; [|exact S]. intros im _ O. split; [apply imap_ok; exact O|auto].
  - cbn [get_cutout_list_any]. destruct (D i o HO N) as (l & -> & L & h & w & S). cbn [bind]. destruct S as (PH & PW & F). rewrite Forall_forall in F.
    destruct (mapM_shape (prepare_psf lg) l h w PH PW) as (ims & E & L' & S').
    { intros im Hi. destruct (F im Hi) as (A & B & C). apply prepare_psf_ok; assumption. }
    exists ims, h, w. split; [exact E|]. split; [lia|exact S'].
  - cbn [get_cutout_list_any]. destruct D as ((m & Hm) & DW). destruct (cutout_list_shape f i o t m WF HO N Hm) as (l & E & L & S). rewrite E. cbn [bind].
    destruct t; try (exists (map (imap Fin) l), (o_box o), (o_box o); split; [reflexivity|]; rewrite zlen_map; split; [exact L|]; apply map_shape; [|exact S]; intros im _ O; split; [apply imap_ok; exact O|auto]);
      try (exists (map (prepare_seg lg) l), (o_box o), (o_box o); split; [reflexivity|]; rewrite zlen_map; split; [exact L|]; apply map_shape; [|exact S]; intros im _ O; split; [apply imap_ok; exact O|auto]).
    destruct (DW eq_refl) as (mw & Hw). destruct (cutout_list_shape f i o TWeight mw WF HO N Hw) as (lw & -> & Lw & Sw). cbn [bind].
    destruct S as (PH & PW & F). destruct Sw as (_ & _ & Fw). rewrite Forall_forall in F, Fw.
    destruct (mapM_shape (fun p => prepare_image sd (fst p) (snd p)) (List.combine l lw) (o_box o) (o_box o) PH PW) as (ims & EI & LI & SI).
    { intros [im wt] Hp. destruct (F im (in_combine_l _ _ _ _ Hp)) as (A & B & C). destruct (Fw wt (in_combine_r _ _ _ _ Hp)) as (A' & B' & C').
      cbn [fst snd]. apply prepare_image_ok; assumption. }
    exists ims, (o_box o), (o_box o). split; [exact EI|]. split; [|exact SI]. rewrite LI. unfold zlen in *. rewrite combine_length. lia.
Qed.

Definition final (i : Z) (t : vtype) (d : drawing) : Prop :=
  exists o ims, zget (m_cat f) i = Some o /\ images_of sd lg fuel fast f i t = Ok ims /\ zlen ims = o_ncut o /\
    if comb then combined_of ims d else table_of hc o ims d.

Lemma titles_ok o k : 0 <= k < zlen (o_slots o) -> exists t, py_index (titles_of hc o) k = Ok t /\ titled hc o k t.
Proof.
  intros H. destruct (zget_range_Some (o_slots o) k H) as (s & Hs). unfold titles_of, titled. destruct hc.
  - destruct (k =? 0) eqn:E.
    + assert (k = 0) as -> by lia. exists TCoadd. split; [reflexivity|]. exists s. auto.
    + exists (TFile (s_file s)). split; [|exists s; auto]. destruct (o_slots o) as [|s0 l]; [exfalso; apply zget_Some_range in Hs; change (zlen (@nil slot)) with 0 in Hs; lia|]. cbn [map tl].
      unfold py_index. replace (k <? 0) with false by lia. change (TCoadd :: map (fun s1 => TFile (s_file s1)) l) with ([TCoadd] ++ map (fun s1 => TFile (s_file s1)) l).
      rewrite zget_app. change (zlen [TCoadd]) with 1. replace (k <? 1) with false by lia. rewrite zget_map.
      change (s0 :: l) with ([s0] ++ l) in Hs. rewrite zget_app in Hs. change (zlen [s0]) with 1 in Hs. replace (k <? 1) with false in Hs by lia. rewrite Hs. reflexivity.
  - exists (TFile (s_file s)). split; [|exists s; auto]. unfold py_index. replace (k <? 0) with false by lia. rewrite zget_map, Hs. reflexivity.
Qed.

Lemma py_index_get {A} (l : list A) k x : zget l k = Some x -> py_index l k = Ok x.
Proof. intros H. pose proof (zget_Some_range _ _ _ H). unfold py_index. replace (k <? 0) with false by lia. rewrite H. reflexivity. Qed.

Lemma cells_ok file titles (ims : list (img fv)) rows cols h w o : all_shape h w ims -> 1 <= cols -> zlen ims <= rows * cols ->
  (forall k, 0 <= k < zlen ims -> exists t, py_index titles k = Ok t /\ titled hc o k t) ->
  forall n, 0 <= n <= zlen ims ->
  exists evs cells, omap (fun i =>
        do* im := lift (py_index ims i) in
        do* rc := lift (get_rowcol (rows, cols) i) in
        do* t := lift (py_index titles i) in
        do* s := view file false (Some t) im in
        ret (rc, (Some t, s))) (map (Z.add (zlen ims - n)) (zrange n)) = (evs, Ok cells) /\ zlen cells = n /\ page evs = [] /\
    Forall (fun e => match file with Some (i, t) => same_name i t e | None => quiet e end) evs /\
    forall k im, zlen ims - n <= k -> zget ims k = Some im ->
      k / cols < rows /\ exists t s, zget cells (k - (zlen ims - n)) = Some ((k / cols, k mod cols), (Some t, s)) /\ titled hc o k t /\ rescaled im s.
Proof.
  intros (PH & PW & F) C L T n [Hn Hn2]. rewrite Forall_forall in F. revert Hn2. pattern n. apply natlike_ind; [|clear n Hn|exact Hn].
  - intros _. exists [], []. split; [reflexivity|]. split; [reflexivity|]. split; [reflexivity|]. split; [constructor|].
    intros k im Hk Hz. apply zget_Some_range in Hz. lia.
  - intros n Hn IH Hn2. unfold Z.succ in *. destruct IH as (evs & cells & E & LC & PE & FE & K); [lia|].
    assert (ER : map (Z.add (zlen ims - (n + 1))) (zrange (n + 1)) = (zlen ims - (n + 1)) :: map (Z.add (zlen ims - n)) (zrange n)).
    { unfold zrange. replace (Z.to_nat (n + 1)) with (S (Z.to_nat n)) by lia. cbn [seq map]. f_equal; [lia|].
      rewrite <- seq_shift, !map_map. apply map_ext. intros a. lia. }
    rewrite ER. cbn [omap]. set (k := zlen ims - (n + 1)) in *.
    destruct (zget_range_Some ims k) as (im & Him); [lia|]. destruct (F im (zget_In _ _ _ Him)) as (I1 & I2 & I3).
    destruct (rowcol_eq rows cols k C ltac:(lia)) as (RC & A & B). destruct (T k ltac:(lia)) as (t & ET & TT).
    destruct (view_ok file false (Some t) im h w I1 I2 I3 PH PW) as (s & EV & RS).
    rewrite (obind_ok _ _ (fst (finish file false (Plot (Some t) s))) ((k / cols, k mod cols), (Some t, s)) evs (Ok (((k / cols, k mod cols), (Some t, s)) :: cells))).
    + exists (fst (finish file false (Plot (Some t) s)) ++ evs), (((k / cols, k mod cols), (Some t, s)) :: cells). split; [reflexivity|].
      rewrite zlen_cons, LC. split; [lia|]. rewrite finish_eq. cbn [fst app]. rewrite app_nil_r. split; [|split].
      * rewrite page_app, PE, app_nil_r. destruct file as [[i v]|]; reflexivity.
      * apply Forall_app. split; [|exact FE]. destruct file as [[i v]|]; [|constructor]. constructor; [eexists; reflexivity|constructor].
      * intros k' im' Hk' Hz'. destruct (Z.eq_dec k' k) as [->|Hne].
        { rewrite Him in Hz'. injection Hz' as <-. split; [lia|]. exists t, s. rewrite Z.sub_diag. split; [reflexivity|auto]. }
        destruct (K k' im' ltac:(lia) Hz') as (K1 & t' & s' & K2 & K3 & K4). split; [exact K1|]. exists t', s'. split; [|auto].
        change (((k / cols, k mod cols), (Some t, s)) :: cells) with ([((k / cols, k mod cols), (Some t, s))] ++ cells). rewrite zget_app.
        change (zlen [((k / cols, k mod cols), (Some t, s))]) with 1. replace (k' - k <? 1) with false by lia. rewrite <- K2. f_equal. lia.
    + rewrite (obind_lift _ _ im) by (apply py_index_get; exact Him). rewrite (obind_lift _ _ _ RC), (obind_lift _ _ _ ET).
      rewrite (obind_ok _ _ _ s [] (Ok ((k / cols, k mod cols), (Some t, s))) EV eq_refl). rewrite app_nil_r. reflexivity.
    + rewrite (obind_ok _ _ evs cells [] (Ok (((k / cols, k mod cols), (Some t, s)) :: cells)) E eq_refl). rewrite app_nil_r. reflexivity.
Qed.

Lemma view_mosaic_ok i t o ims show (save : bool) h w : zget (m_cat f) i = Some o -> 0 < o_ncut o -> images_of sd lg fuel fast f i t = Ok ims -> zlen ims = o_ncut o ->
  all_shape h w ims ->
  exists evs, view_mosaic (if save then Some (i, t) else None) show comb (titles_of hc o) ims = (evs, Ok tt) /\ page evs = [] /\
    (forall i' t' d, left_in evs i' t' d -> save = true /\ i' = i /\ t' = t /\ final i t d) /\ (save = true -> Exists (same_name i t) evs).
Proof.
  intros HO N EI L S. set (file := if save then Some (i, t) else None).
  assert (HNE : ims <> []) by (intros ->; change (zlen (@nil (img fv))) with 0 in L; lia).
  assert (SLOTS : o_ncut o <= zlen (o_slots o)). { destruct WF as [W _]. rewrite Forall_forall in W. apply (W o (zget_In _ _ _ HO)). }
  assert (FIN : exists pre d, view_mosaic file show comb (titles_of hc o) ims = (pre ++ fst (finish file show d), Ok tt) /\ page pre = [] /\
     Forall (fun e => match file with Some (i, t) => same_name i t e | None => quiet e end) pre /\ final i t d).
  { unfold view_mosaic. destruct comb eqn:EC.
    - destruct (combined_cells ims h w HNE S) as (rows & cols & tot & G & E & O & NR & NC & _). rewrite (obind_lift _ _ _ E).
      destruct (grid_facts (zlen ims)) as (rows' & cols' & G' & R1 & C1 & _); [lia|]. rewrite G in G'. injection G' as <- <-. destruct S as (PH & PW & _).
      destruct (view_ok file show None tot (rows * h) (cols * w) O NR NC ltac:(nia) ltac:(nia)) as (s & EV & RS).
      exists [], (Plot None s). cbn [app].
      rewrite (obind_ok (view file show None tot) (fun _ => ret tt) _ s [] (Ok tt) EV eq_refl), app_nil_r. split; [reflexivity|]. split; [reflexivity|]. split; [constructor|].
      exists o, ims. rewrite EC. repeat (split; [assumption|]). exists tot, s. auto.
    - destruct (grid_facts (zlen ims)) as (rows & cols & G & R1 & C1 & LE & _); [lia|]. rewrite G. cbn [fst snd].
      destruct (cells_ok file (titles_of hc o) ims rows cols h w o S C1 LE) with (n := zlen ims) as (evs & cells & E & LC & PE & FE & K).
      { intros k Hk. apply titles_ok. lia. } { lia. }
      replace (map (Z.add (zlen ims - zlen ims)) (zrange (zlen ims))) with (zrange (zlen ims)) in E.
      2:{ symmetry. rewrite Z.sub_diag. rewrite <- (map_id (zrange (zlen ims))) at 2. apply map_ext. intros; lia. }
      exists evs, (Table rows cols cells). rewrite (obind_ok _ _ evs cells _ _ E (finish_eq file show (Table rows cols cells))). rewrite finish_eq. cbn [fst].
      split; [reflexivity|]. split; [exact PE|]. split; [exact FE|]. exists o, ims. rewrite EC. repeat (split; [assumption|]).
      exists rows, cols, cells. split; [reflexivity|]. split; [exact LC|]. intros k im Hk. pose proof (zget_Some_range _ _ _ Hk).
      destruct (K k im ltac:(lia) Hk) as (K1 & t' & s & K2 & K3). split; [exact K1|]. exists t', s. split; [|exact K3]. rewrite <- K2. f_equal. lia. }
  destruct FIN as (pre & d & E & PP & FP & FD). rewrite finish_eq in E. cbn [fst] in E. eexists. split; [exact E|]. unfold file in *. clear file.
  destruct save.
  - split; [rewrite page_app, PP; destruct show; reflexivity|]. split.
    + intros i' t' d' H. cbn [app] in H. apply left_in_block in H.
      * destruct H as (-> & -> & ->). auto.
      * apply Forall_forall. intros e He. rewrite Forall_forall in FP. right. apply FP. exact He.
      * destruct show; repeat constructor. intros ? ? ?; discriminate.
    + intros _. apply Exists_app. right. left. exists d. reflexivity.
  - split; [rewrite page_app, PP; destruct show; reflexivity|]. split; [|discriminate].
    intros i' t' d' H. exfalso. revert H. apply no_write_left. apply Forall_app. split; [exact FP|]. destruct show; repeat constructor. intros ? ? ?; discriminate.
Qed.

Lemma plot_one_ok i t o show save : zget (m_cat f) i = Some o -> 0 < o_ncut o -> drawable fuel fast f t ->
  exists evs, plot_one sd lg fuel fast f comb hc i t show save = (evs, Ok tt) /\ page evs = [] /\
    (forall i' t' d, left_in evs i' t' d -> save = true /\ i' = i /\ t' = t /\ final i t d) /\ (save = true -> Exists (same_name i t) evs).
Proof.
  intros HO N D. destruct (images_of_ok i o t HO N D) as (ims & h & w & E & L & S). unfold plot_one.
  rewrite (obind_lift _ _ _ E). rewrite (obind_lift _ _ o) by (apply py_index_get; exact HO).
  apply (view_mosaic_ok i t o ims show save h w); assumption.
Qed.

Lemma types_ok i o show save html types : zget (m_cat f) i = Some o -> 0 < o_ncut o -> Forall (drawable fuel fast f) types ->
  exists evs, ofor (fun t => do* _ := plot_one sd lg fuel fast f comb hc i t show save in if html : bool then emit (HtmlItem i t) else ret tt) types = (evs, Ok tt) /\
    page evs = (if html then map (HtmlItem i) types else []) /\
    (forall i' t' d, left_in evs i' t' d -> save = true /\ i' = i /\ In t' types /\ final i t' d) /\
    (save = true -> forall t, In t types -> Exists (same_name i t) evs).
Proof.
  intros HO N F. induction types as [|t types IH].
  - exists []. split; [reflexivity|]. split; [destruct html; reflexivity|]. split; [intros i' t' d (a & b & E & _); destruct a; discriminate|intros _ t []].
  - inversion F as [|? ? F1 F2]; subst. destruct (IH F2) as (evs & E & P & LI & EX). destruct (plot_one_ok i t o show save HO N F1) as (e1 & E1 & P1 & L1 & X1).
    cbn [ofor]. set (it := if html then [HtmlItem i t] else []).
    rewrite (obind_ok _ _ (e1 ++ it) tt evs (Ok tt)); [| |exact E].
    + exists ((e1 ++ it) ++ evs). split; [reflexivity|]. split; [|split].
      * rewrite !page_app, P, P1. unfold it. destruct html; reflexivity.
      * intros i' t' d H. apply left_in_app in H. destruct H as [H|H].
        { apply left_in_app in H. destruct H as [H|H]; [destruct (L1 _ _ _ H) as (A & B & C & D); subst i' t'; split; [exact A|]; split; [reflexivity|]; split; [left; reflexivity|exact D]|].
          exfalso. revert H. apply no_write_left. unfold it. destruct html; repeat constructor. intros ? ? ?; discriminate. }
        destruct (LI _ _ _ H) as (A & B & C & D). split; [exact A|]. split; [exact B|]. split; [right; exact C|exact D].
      * intros HS t' [<-|Ht]; [apply Exists_app; left; apply Exists_app; left; exact (X1 HS)|]. apply Exists_app. right. apply EX; assumption.
    + apply (obind_ok _ _ e1 tt it (Ok tt) E1). unfold it. destruct html; reflexivity.
Qed.

Lemma object_ok types save show html quit i o : zget (m_cat f) i = Some o -> 0 < o_ncut o -> Forall (drawable fuel fast f) types ->
  exists evs, view_object sd lg fuel fast f comb hc types save show html quit i = (evs, Ok (if show then negb quit else true)) /\
    page evs = (if html then page_row types i else []) /\
    (forall i' t' d, left_in evs i' t' d -> save = true /\ i' = i /\ In t' types /\ final i t' d) /\
    (save = true -> forall t, In t types -> Exists (same_name i t) evs).
Proof.
  intros HO N F. unfold view_object. rewrite (obind_lift _ _ o) by (apply py_index_get; exact HO). replace (o_ncut o =? 0) with false by lia.
  destruct (types_ok i o show save html types HO N F) as (evs & E & P & LI & EX).
  set (a := if html then [HtmlRow] else []). set (b := if html then [HtmlRowEnd] else []).
  exists (a ++ evs ++ b). split; [|split; [|split]].
  - apply (obind_ok _ _ a tt (evs ++ b)); [unfold a; destruct html; reflexivity|]. apply (obind_ok _ _ evs tt b); [exact E|].
    rewrite (obind_ok _ _ b tt [] (Ok (if show then negb quit else true))); [rewrite app_nil_r; reflexivity|unfold b; destruct html; reflexivity|destruct show; reflexivity].
  - rewrite !page_app, P. unfold a, b, page_row. destruct html; reflexivity.
  - intros i' t' d H. apply left_in_app in H. destruct H as [H|H].
    { exfalso. revert H. apply no_write_left. unfold a. destruct html; repeat constructor. intros ? ? ?; discriminate. }
    apply left_in_app in H. destruct H as [H|H]; [apply LI; exact H|].
    exfalso. revert H. apply no_write_left. unfold b. destruct html; repeat constructor. intros ? ? ?; discriminate.
  - intros HS t Ht. apply Exists_app. right. apply Exists_app. left. apply EX; assumption.
Qed.

Lemma object_empty types save show html quit i o : zget (m_cat f) i = Some o -> o_ncut o = 0 ->
  view_object sd lg fuel fast f comb hc types save show html quit i = ([], Ok true).
Proof.
  intros HO N. unfold view_object. rewrite (obind_lift _ _ o) by (apply py_index_get; exact HO). rewrite N. reflexivity.
Qed.

Lemma loop_ok types save show html answer (ids : list (Z * Z)) : Forall (drawable fuel fast f) types -> (show = true -> forall i, answer i = false) ->
  Forall (fun p => 0 <= snd p < zlen (m_cat f)) ids ->
  exists evs seen, oloop (fun p => view_object sd lg fuel fast f comb hc types save show html (answer (fst p)) (snd p)) ids = (evs, Ok true) /\
    restricted (has_cutouts f) (map snd ids) seen /\ page evs = (if html then flat_map (page_row types) seen else []) /\
    (forall i t d, left_in evs i t d -> save = true /\ In i (map snd ids) /\ has_cutouts f i /\ In t types /\ final i t d) /\
    (save = true -> forall i t, In i (map snd ids) -> has_cutouts f i -> In t types -> Exists (same_name i t) evs).
Proof.
  intros F A. induction ids as [|[n i] ids IH]; intros R.
  - exists [], []. split; [reflexivity|]. split; [constructor|]. split; [destruct html; reflexivity|].
    split; [intros ? ? ? (u & v & E & _); destruct u; discriminate|intros _ i t []].
  - inversion R as [|? ? R1 R2]; subst. cbn [snd] in R1. destruct (IH R2) as (evs & seen & E & RS & P & LI & EX).
    destruct (zget_range_Some (m_cat f) i R1) as (o & HO). cbn [oloop fst snd map].
    assert (NN : 0 <= o_ncut o). { destruct WF as [W _]. rewrite Forall_forall in W. apply (W o (zget_In _ _ _ HO)). }
    destruct (Z.eq_dec (o_ncut o) 0) as [Z0|Z0].
    + rewrite (object_empty types save show html (answer n) i o HO Z0). unfold obind at 1. cbn [fst snd app]. rewrite E. cbn [fst snd].
      exists evs, seen. split; [reflexivity|].
      assert (NH : ~ has_cutouts f i). { intros (o' & HO' & H'). rewrite HO in HO'. injection HO' as <-. lia. }
      split; [apply restr_drop; assumption|]. split; [exact P|]. split.
      * intros i' t' d H. destruct (LI _ _ _ H) as (B1 & B2 & B3). split; [exact B1|]. split; [right; exact B2|exact B3].
      * intros HS i' t' [<-|Hi] Hc Ht; [contradiction|]. apply EX; assumption.
    + destruct (object_ok types save show html (answer n) i o HO ltac:(lia) F) as (e1 & E1 & P1 & L1 & X1).
      assert (B : (if show then negb (answer n) else true) = true) by (destruct show; [rewrite (A eq_refl); reflexivity|reflexivity]). rewrite B in E1.
      rewrite (obind_ok _ _ e1 true evs (Ok true) E1 E).
      assert (HH : has_cutouts f i) by (exists o; split; [exact HO|lia]).
      exists (e1 ++ evs), (i :: seen). split; [reflexivity|]. split; [apply restr_keep; assumption|]. split; [|split].
      * rewrite page_app, P1, P. destruct html; reflexivity.
      * intros i' t' d H. apply left_in_app in H. destruct H as [H|H].
        { destruct (L1 _ _ _ H) as (B1 & -> & B3 & B4). split; [exact B1|]. split; [left; reflexivity|]. auto. }
        destruct (LI _ _ _ H) as (B1 & B2 & B3). split; [exact B1|]. split; [right; exact B2|exact B3].
      * intros HS i' t' [<-|Hi] Hc Ht; apply Exists_app; [left; apply X1; assumption|right; apply EX; assumption].
Qed.

Lemma snd_combine {A B} (l : list A) (l' : list B) : length l = length l' -> map snd (List.combine l l') = l'.
Proof. revert l'. induction l as [|a l IH]; intros [|b l'] H; try discriminate; [reflexivity|]. cbn. f_equal. apply IH. cbn in H. lia. Qed.

Lemma go_ok types save show start end_ indices html answer : Forall (drawable fuel fast f) types ->
  html = true \/ save = true \/ show = true -> (show = true -> forall i, answer i = false) ->
  let ids := get_indices f start end_ indices in
  Forall (fun i => 0 <= i < zlen (m_cat f)) ids ->
  exists evs seen, go sd lg fuel fast f comb hc types save show start end_ indices html answer = (evs, Ok true) /\
    restricted (has_cutouts f) ids seen /\
    page evs = (if html then HtmlHead :: flat_map (page_row types) seen ++ [HtmlFoot] else []) /\
    (forall i t, (exists d, left_in evs i t d) <-> (html = true \/ save = true) /\ In i ids /\ has_cutouts f i /\ In t types) /\
    (forall i t d, left_in evs i t d -> final i t d).
Proof.
  intros F M A ids R. unfold go. fold ids. set (save' := if html then true else save).
  assert (SV : save' = true <-> html = true \/ save = true) by (unfold save'; destruct html, save; intuition).
  replace (negb save' && negb show) with false by (unfold save'; destruct html, save, show; intuition discriminate).
  destruct (loop_ok types save' show html answer (List.combine (zrange (zlen ids)) ids) F A) as (evs & seen & E & RS & P & LI & EX).
  { apply Forall_forall. intros [n i] H. cbn [snd]. rewrite Forall_forall in R. apply R. eapply in_combine_r; exact H. }
  rewrite snd_combine in RS, LI, EX by (rewrite zrange_length; unfold zlen; lia).
  set (a := if html then [HtmlHead] else []). set (b := if html then [HtmlFoot] else []).
  assert (QA : Forall quiet a) by (unfold a; destruct html; repeat constructor; intros ? ? ?; discriminate).
  assert (QB : Forall quiet b) by (unfold b; destruct html; repeat constructor; intros ? ? ?; discriminate).
  exists (a ++ evs ++ b), seen. split; [|split; [exact RS|split; [|split]]].
  - apply (obind_ok _ _ a tt (evs ++ b)); [unfold a; destruct html; reflexivity|]. apply (obind_ok _ _ evs true b); [exact E|].
    rewrite (obind_ok _ _ b tt [] (Ok true)); [rewrite app_nil_r; reflexivity|unfold b; destruct html; reflexivity|reflexivity].
  - rewrite !page_app, P. unfold a, b. destruct html; reflexivity.
  - intros i t. split.
    + intros (d & H). apply left_in_app in H. destruct H as [H|H]; [exfalso; revert H; apply no_write_left; exact QA|].
      apply left_in_app in H. destruct H as [H|H]; [|exfalso; revert H; apply no_write_left; exact QB].
      destruct (LI _ _ _ H) as (B1 & B2 & B3 & B4 & _). split; [apply SV; exact B1|auto].
    + intros (B1 & B2 & B3 & B4). apply left_in_exists. apply Exists_app. right. apply Exists_app. left. apply EX; auto. apply SV. exact B1.
  - intros i t d H. apply left_in_app in H. destruct H as [H|H]; [exfalso; revert H; apply no_write_left; exact QA|].
    apply left_in_app in H. destruct H as [H|H]; [|exfalso; revert H; apply no_write_left; exact QB].
    destruct (LI _ _ _ H) as (_ & _ & _ & _ & H'). exact H'.
Qed.
End Run.
