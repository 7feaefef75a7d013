(** Lemmas on the extensions of extracted files. *)
From Coq Require Import Lia ZifyBool ZifyNat String.
From Verif Require Import Base BaseLemmas Img Types MakerFile Extract MakerFail Meta ExtractExt SpecExtractExt FailLemmas.
Open Scope Z_scope.

(** * Finding by name *)
Lemma hfind_app {X} (a b : list (hdu X)) n : hfind (a ++ b) n = match hfind a n with Some h => Some h | None => hfind b n end.
Proof.
  unfold hfind. induction a as [|h a IH]; [reflexivity|]. cbn [app find]. destruct (String.eqb _ _); [reflexivity|exact IH].
Qed.
Lemma hfind_none {X} (a : list (hdu X)) n : ~ In (lower n) (map (fun h => lower (fst h)) a) -> hfind a n = None.
Proof.
  unfold hfind. induction a as [|h a IH]; intros N; [reflexivity|]. cbn [find map In] in *. destruct (String.eqb _ _) eqn:E.
  - apply String.eqb_eq in E. tauto.
  - apply IH. tauto.
Qed.
Lemma hfind_in {X} (a : list (hdu X)) n d : hfind a n = Some d -> exists m, In (m, d) a /\ lower m = lower n.
Proof.
  unfold hfind. intros H. destruct (find (fun h => String.eqb (lower (fst h)) (lower n)) a) as [[m d']|] eqn:F; [|discriminate]. injection H as <-.
  apply find_some in F. destruct F as [I E]. exists m. split; [exact I|]. apply String.eqb_eq. exact E.
Qed.
Lemma hfind_filter {X} (p : hdu X -> bool) (a : list (hdu X)) n d : hfind a n = Some d ->
  (forall m, lower m = lower n -> p (m, d) = true) -> hfind (filter p a) n = Some d.
Proof.
  unfold hfind. intros H P. induction a as [|h a IH]; [discriminate|]. cbn [find filter] in *.
  destruct (String.eqb (lower (fst h)) (lower n)) eqn:E.
  - injection H as H. destruct h as [m d']. cbn [snd fst] in *. subst d'. apply String.eqb_eq in E. rewrite (P _ E). cbn [find fst].
    rewrite E, String.eqb_refl. reflexivity.
  - destruct (p h); [cbn [find]; rewrite E|]; exact (IH H).
Qed.

(** * The loop *)
Section Loop.
  Context {A : Type}.
  Definition go_writes (ws : list (res (list A))) (out : list A) : run (list A) :=
    loop (fun out w => step out (let* hs := w in Ok (out ++ hs))) ws out.

  Lemma writes_ok ws : forall out r, go_writes ws out = (r, None) -> exists l, ws = map Ok l /\ r = (out ++ concat l).
  Proof.
    induction ws as [|w ws IH]; intros out r H; cbn [go_writes loop] in H.
    - injection H as <-. exists []. split; [reflexivity|]. rewrite app_nil_r. reflexivity.
    - destruct w as [hs|e]; cbn [bind step] in H; [|discriminate]. destruct (IH _ _ H) as (l & -> & ->). exists (hs :: l).
      split; [reflexivity|]. cbn [concat]. rewrite app_assoc. reflexivity.
  Qed.
  Lemma writes_err ws : forall out r e, go_writes ws out = (r, Some e) ->
    exists l ws2, ws = map Ok l ++ Err e :: ws2 /\ r = (out ++ concat l).
  Proof.
    induction ws as [|w ws IH]; intros out r e H; cbn [go_writes loop] in H; [discriminate|].
    destruct w as [hs|e']; cbn [bind step] in H.
    - destruct (IH _ _ _ H) as (l & ws2 & -> & ->). exists (hs :: l), ws2. split; [reflexivity|]. cbn [concat]. rewrite app_assoc. reflexivity.
    - injection H as <- <-. exists [], ws. split; [reflexivity|]. rewrite app_nil_r. reflexivity.
  Qed.
  Lemma writes_all l : forall out, go_writes (map Ok l) out = ((out ++ concat l), None).
  Proof.
    induction l as [|hs l IH]; intros out; cbn [map go_writes loop concat]; [rewrite app_nil_r; reflexivity|].
    cbn [bind step]. change (go_writes (map Ok l) (out ++ hs) = (out ++ hs ++ concat l, None)). rewrite IH, app_assoc. reflexivity.
  Qed.
  Lemma writes_stop l e ws2 : forall out, go_writes (map Ok l ++ Err e :: ws2) out = ((out ++ concat l), Some e).
  Proof.
    induction l as [|hs l IH]; intros out; cbn [map app go_writes loop concat]; [rewrite app_nil_r; reflexivity|].
    cbn [bind step]. change (go_writes (map Ok l ++ Err e :: ws2) (out ++ hs) = (out ++ hs ++ concat l, Some e)).
    rewrite IH, app_assoc. reflexivity.
  Qed.
End Loop.

Lemma extract_eq {X} full ca pc (f : list (hdu X)) s e :
  extract_on_disk full ca pc f s e =
  match selection pc f s e with Err er => ([], Some er) | Ok sel => go_writes (writes full ca f sel) [] end.
Proof. reflexivity. Qed.

(** * Names *)
Definition named {X} (w : res (list (hdu X))) (ns : list string) : Prop :=
  match w with Ok hs => map fst hs = ns | Err _ => ns <> [] end.

Lemma cut_named {X} (f : list (hdu X)) a b n : named (cut_hdu f a b n) [n].
Proof. unfold cut_hdu. destruct (read_pix f n); [|discriminate]. cbn [bind]. destruct (slice _ _ _); [reflexivity|discriminate]. Qed.
Lemma cut_if_named {X} (f : list (hdu X)) a b n : named (cut_if_there f a b n) (if in_file f n then [n] else []).
Proof. unfold cut_if_there, in_file. destruct (hfind f n); [apply cut_named|reflexivity]. Qed.
Lemma table_named {X} (f : list (hdu X)) n : named (let* h := read_table f n in Ok [h]) [n].
Proof. unfold read_table. destruct (hfind f n); [reflexivity|discriminate]. Qed.

Definition own_writes {X} (f : list (hdu X)) (sel : list obj * (Z * Z) * (Z * Z)) : list (res (list (hdu X))) :=
  writes (fun _ => false) false f sel.
Lemma writes_split {X} full ca (f : list (hdu X)) sel :
  writes full ca f sel = own_writes f sel ++ if ca then map (fun h => Ok [h]) (to_copy full f) else [].
Proof.
  unfold own_writes, writes. destruct sel as [[rows [a b]] [pa pb]]. rewrite app_nil_r, <- app_assoc. reflexivity.
Qed.

Definition own_list {X} (f : list (hdu X)) (any : bool) : list (list string) :=
  map (fun n => [n]) tables ++
  if any then map (fun n => [n]) required ++ map (fun n => if in_file f n then [n] else []) optional else map (fun n => [n]) dummies.
Lemma own_list_concat {X} (f : list (hdu X)) any : concat (own_list f any) = own_names f any.
Proof.
  unfold own_list, own_names. rewrite concat_app. f_equal. destruct any; [|reflexivity]. rewrite concat_app. f_equal.
  unfold optional. cbn [map filter]. destruct (in_file f "bmask_cutouts"), (in_file f "noise_cutouts"), (in_file f "psf"); reflexivity.
Qed.

Lemma own_named {X} (f : list (hdu X)) rows cr pr : Forall2 named (own_writes f (rows, cr, pr)) (own_list f (negb (fst cr =? -1))).
Proof.
  destruct cr as [a b], pr as [pa pb]. unfold own_writes, writes, own_list. rewrite app_nil_r. cbn [fst]. apply Forall2_app.
  - repeat constructor; cbn [map tables]; try apply table_named.
  - destruct (a =? -1); cbn [negb].
    + repeat constructor.
    + cbn [map required optional app]. repeat constructor; try apply cut_named; apply cut_if_named.
Qed.

Lemma named_ok {X} (ws : list (res (list (hdu X)))) ns l : Forall2 named ws ns -> ws = map Ok l -> map fst (concat l) = concat ns.
Proof.
  intros F. revert l. induction F as [|w n ws ns W F IH]; intros [|x l] E; try discriminate; [reflexivity|].
  cbn [map] in E. injection E as -> E. cbn [concat]. rewrite map_app. f_equal; [exact W|exact (IH _ E)].
Qed.
Lemma named_err {X} (ws : list (res (list (hdu X)))) ns l e ws2 : Forall2 named ws ns -> ws = map Ok l ++ Err e :: ws2 ->
  exists k, (k < length (concat ns))%nat /\ map fst (concat l) = firstn k (concat ns).
Proof.
  intros F. revert l. induction F as [|w n ws ns W F IH]; intros [|x l] E; try discriminate.
  - cbn [map app] in E. injection E as -> _. cbn [named] in W. exists 0%nat. split; [|reflexivity]. cbn [concat].
    rewrite app_length. destruct n; [contradiction|cbn; lia].
  - cbn [map app] in E. injection E as -> E. destruct (IH _ E) as (k & K & M). cbn [named] in W. exists (length n + k)%nat.
    cbn [concat]. split; [rewrite app_length; lia|]. rewrite map_app, firstn_app_2. f_equal; [exact W|exact M].
Qed.

(** * Whether there are cutouts *)
Lemma row_range_none rows cr : placed rows -> row_range rows = Ok cr -> negb (fst cr =? -1) = any_cutouts rows.
Proof.
  unfold row_range, any_cutouts. intros P H.
  assert (E : existsb (fun o => 0 <? o_ncut o) rows = match filter (fun o => 0 <? o_ncut o) rows with [] => false | _ => true end).
  { clear. induction rows as [|o l IH]; [reflexivity|]. cbn [existsb filter]. destruct (0 <? o_ncut o); [reflexivity|exact IH]. }
  rewrite E. destruct (filter _ rows) as [|o w] eqn:F; [injection H as <-; reflexivity|].
  apply bind_ok in H. destruct H as (s0 & S0 & H). apply bind_ok in H. destruct H as (s1 & _ & H). injection H as <-. cbn [fst].
  assert (I : In o (filter (fun o => 0 <? o_ncut o) rows)) by (rewrite F; left; reflexivity).
  apply filter_In in I. destruct I as [I N]. unfold placed in P. rewrite Forall_forall in P. destruct (P _ I ltac:(lia)) as (s & l & S & Z0).
  unfold get_slot in S0. rewrite S in S0. unfold py_index in S0. cbn in S0. injection S0 as <-. lia.
Qed.

Lemma selection_rows {X} pc (f : list (hdu X)) s e sel : selection pc f s e = Ok sel ->
  exists rows, read_obj f = Ok rows /\ exists sub cr pr data, slice rows s (e + 1) = Ok sub /\ row_range sub = Ok cr /\ sel = (data, cr, pr).
Proof.
  unfold selection. intros H. apply bind_ok in H. destruct H as (rows & R & H). apply bind_ok in H. destruct H as (sub & S & H).
  apply bind_ok in H. destruct H as (cr & C & H). apply bind_ok in H. destruct H as (pr & _ & H). injection H as <-.
  exists rows. split; [exact R|]. do 4 eexists. split; [exact S|]. split; [exact C|reflexivity].
Qed.

Lemma to_copy_iff {X} full (f : list (hdu X)) h : In h (to_copy full f) <-> In h f /\ foreign full h.
Proof.
  unfold to_copy, foreign, mem_str. rewrite filter_In, Bool.andb_true_iff, Bool.negb_true_iff. split.
  - intros (I & D & N). repeat split; try assumption. intros C.
    assert (existsb (String.eqb (fst h)) default_ext = true) by (apply existsb_exists; exists (fst h); split; [exact C|apply String.eqb_refl]).
    congruence.
  - intros (I & D & N). repeat split; try assumption. apply Bool.not_true_is_false. intros C. apply existsb_exists in C.
    destruct C as (x & C & E). apply String.eqb_eq in E. subst x. contradiction.
Qed.

Lemma app_map_ok {A} (a b : list (res A)) l : a ++ b = map Ok l -> exists l1 l2, a = map Ok l1 /\ b = map Ok l2 /\ l = (l1 ++ l2)%list.
Proof.
  revert l. induction a as [|x a IH]; intros l H; [exists [], l; auto|]. destruct l as [|y l]; [discriminate|].
  cbn [app map] in H. injection H as -> H. destruct (IH _ H) as (l1 & l2 & -> & -> & ->). exists (y :: l1), l2. auto.
Qed.

Theorem extensions {X} full ca pc (f : list (hdu X)) s e out rows sub :
  extract_on_disk full ca pc f s e = (out, None) -> read_obj f = Ok rows -> slice rows s (e + 1) = Ok sub -> placed sub ->
  exists own others, out = (own ++ others)%list /\ map fst own = own_names f (any_cutouts sub) /\
    (ca = false -> others = []) /\
    (ca = true -> forall h, In h others <-> In h f /\ foreign full h).
Proof.
  rewrite extract_eq. intros H R S P. destruct (selection pc f s e) as [sel|er] eqn:SE; [|discriminate].
  destruct (selection_rows _ _ _ _ _ SE) as (rows' & R' & sub' & cr & pr & data & S' & C & ->).
  rewrite R in R'. injection R' as <-. rewrite S in S'. injection S' as <-.
  apply writes_ok in H. destruct H as (l & W & ->). rewrite writes_split in W. apply app_map_ok in W.
  destruct W as (l1 & l2 & W1 & W2 & ->). cbn [app]. rewrite concat_app. exists (concat l1), (concat l2). split; [reflexivity|]. split; [|split].
  - rewrite (named_ok _ _ _ (own_named f data cr pr) W1), own_list_concat, (row_range_none _ _ P C). reflexivity.
  - intros ->. destruct l2; [reflexivity|discriminate].
  - intros ->. assert (E : concat l2 = to_copy full f).
    { clear - W2. revert l2 W2. generalize (to_copy full f). induction l as [|h t IH]; intros [|x l2] E; try discriminate; [reflexivity|].
      cbn [map] in E. injection E as <- E. cbn [concat app]. rewrite (IH _ E). reflexivity. }
    rewrite E. apply to_copy_iff.
Qed.

(** * What is left after an exception *)
Lemma err_in_own {A} (a : list (res A)) (b : list A) l e ws2 : a ++ map Ok b = map Ok l ++ Err e :: ws2 ->
  exists ws3, a = map Ok l ++ Err e :: ws3.
Proof.
  revert l. induction a as [|x a IH]; intros l H.
  - exfalso. cbn [app] in H. revert b H. induction l as [|y l IL]; intros [|z b] H; try discriminate. cbn [map app] in H. injection H as _ H. exact (IL _ H).
  - destruct l as [|y l]; cbn [map app] in H.
    + injection H as -> H. exists a. reflexivity.
    + injection H as -> H. destruct (IH _ H) as (ws3 & ->). exists ws3. reflexivity.
Qed.

Lemma own_err {X} full ca (f : list (hdu X)) sel l e ws2 : writes full ca f sel = map Ok l ++ Err e :: ws2 ->
  exists ws3, own_writes f sel = map Ok l ++ Err e :: ws3.
Proof.
  rewrite writes_split. intros H. destruct ca.
  - rewrite <- (map_map (fun h => [h]) Ok) in H. exact (err_in_own _ _ _ _ _ H).
  - rewrite app_nil_r in H. exists ws2. exact H.
Qed.

Lemma missing_ext_iff oc ic (ns : list string) :
  (exists r, validate_meds (mkVfile ns oc ic) = Ok r /\ forall n, ~ In (MissingExt n) r) <->
  has_ext (mkVfile ns oc ic) "object_data" && has_ext (mkVfile ns oc ic) "image_info" && has_ext (mkVfile ns oc ic) "metadata" &&
  has_ext (mkVfile ns oc ic) "image_cutouts" = true.
Proof.
  unfold validate_meds, open_meds.
  destruct (has_ext _ "object_data") eqn:A; cbn [andb bind]; [|split; [intros (r & H & _); discriminate|discriminate]].
  destruct (has_ext _ "image_info") eqn:B; cbn [andb bind]; [|split; [intros (r & H & _); discriminate|discriminate]].
  destruct (has_ext _ "metadata") eqn:C; cbn [andb bind]; [|split; [intros (r & H & _); discriminate|discriminate]].
  cbv zeta. generalize (filter (fun n => negb (mem_str (lower n) (map lower (vf_obj_cols (mkVfile ns oc ic))))) (output_names [])) as objs.
  generalize (filter (fun n => negb (mem_str n (map lower (vf_info_cols (mkVfile ns oc ic)))))
    ["image_path"; "image_ext"; "image_id"; "image_flags"; "magzp"; "scale"]%string) as infos. intros infos objs.
  cbn [filter]. rewrite A, B. cbn [negb]. destruct (has_ext _ "image_cutouts") eqn:D; cbn [negb map app].
  - split; [reflexivity|]. intros _. eexists. split; [reflexivity|]. intros n I. rewrite in_app_iff in I.
    destruct I as [I|I]; apply in_map_iff in I; destruct I as (x & E & _); discriminate.
  - split; [|discriminate]. intros (r & E & N). injection E as E. exfalso. apply (N "image_cutouts"%string). rewrite <- E. left. reflexivity.
Qed.

Theorem left_names {X} full ca pc (f : list (hdu X)) s e out er oc ic :
  extract_on_disk full ca pc f s e = (out, Some er) ->
  exists any k, (k < length (own_names f any))%nat /\ map fst out = firstn k (own_names f any) /\
    (open_meds (hnames oc ic out) = Ok tt <-> (3 <= k)%nat) /\
    ((exists r, validate_meds (hnames oc ic out) = Ok r /\ forall n, ~ In (MissingExt n) r) <-> (4 <= k)%nat).
Proof.
  rewrite extract_eq. intros H. destruct (selection pc f s e) as [sel|er'] eqn:SE.
  2:{ injection H as <- _. exists false, 0%nat. split; [cbn; lia|]. split; [reflexivity|].
      split; [split; [discriminate|lia]|]. split; [intros (r & F & _); discriminate|lia]. }
  destruct (selection_rows _ _ _ _ _ SE) as (rows' & R' & sub' & cr & pr & data & S' & C & ->).
  apply writes_err in H. destruct H as (l & ws2 & W & ->). cbn [app]. apply own_err in W. destruct W as (ws3 & W).
  destruct (named_err _ _ _ _ _ (own_named f data cr pr) W) as (k & K & M). rewrite own_list_concat in K, M.
  exists (negb (fst cr =? -1)), k. split; [exact K|]. split; [exact M|].
  unfold hnames. rewrite missing_ext_iff, M. unfold own_names, open_meds, has_ext. cbn [vf_ext]. clear.
  destruct k as [|[|[|[|k]]]].
  1-3: split; (split; [discriminate|lia]).
  1: split; [split; [lia|reflexivity]|split; [discriminate|lia]].
  split; (split; [lia|]); intros _; destruct (fst cr =? -1); reflexivity.
Qed.



(** * Found by name *)
Lemma own_default {X} (f : list (hdu X)) any n : In n (own_names f any) -> lower n = n /\ In n (default_ext ++ ["noise_cutouts"%string]).
Proof.
  intros I. assert (D : In n (default_ext ++ ["noise_cutouts"%string])).
  { unfold own_names in I. rewrite !in_app_iff in *. destruct I as [I|I].
    - left. cbn in I |- *. intuition.
    - destruct any.
      + rewrite in_app_iff, filter_In in I. destruct I as [I|[I _]]; cbn in I |- *; intuition.
      + left. cbn in I |- *. intuition. }
  split; [|exact D]. cbn in D. intuition (subst; reflexivity).
Qed.

Theorem found {X} full pc (f : list (hdu X)) s e out n d :
  extract_on_disk full true pc f s e = (out, None) ->
  ~ In (lower n) ("noise_cutouts"%string :: default_ext) -> hfind f n = Some d -> has_data full d = true ->
  hfind out n = Some d.
Proof.
  rewrite extract_eq. intros H N F D. destruct (selection pc f s e) as [sel|er] eqn:SE; [|discriminate].
  destruct (selection_rows _ _ _ _ _ SE) as (rows' & R' & sub' & cr & pr & data & S' & C & ->).
  apply writes_ok in H. destruct H as (l & W & ->). rewrite writes_split in W. apply app_map_ok in W.
  destruct W as (l1 & l2 & W1 & W2 & ->). cbn [app]. rewrite concat_app, hfind_app.
  assert (E : concat l2 = to_copy full f).
  { clear - W2. revert l2 W2. generalize (to_copy full f). induction l as [|h t IH]; intros [|x l2] E; try discriminate; [reflexivity|].
    cbn [map] in E. injection E as <- E. cbn [concat app]. rewrite (IH _ E). reflexivity. }
  rewrite (hfind_none (concat l1)), E.
  - unfold to_copy. apply hfind_filter; [exact F|]. intros m M. cbn [fst snd]. rewrite D. cbn [andb]. apply Bool.negb_true_iff.
    apply Bool.not_true_is_false. intros I. apply existsb_exists in I. destruct I as (x & I & Q). apply String.eqb_eq in Q. subst x.
    apply N. right. rewrite <- M. cbn in I |- *. intuition (subst; cbn; tauto).
  - intros I. pose proof (named_ok _ _ _ (own_named f data cr pr) W1) as Q. rewrite own_list_concat in Q.
    rewrite <- (map_map fst lower) in I. apply in_map_iff in I. destruct I as (x & L & I).
    assert (IX : In x (own_names f (negb (fst cr =? -1)))) by (rewrite <- Q; exact I).
    destruct (own_default _ _ _ IX) as [LX DX]. rewrite LX in L. subst x. apply N. rewrite in_app_iff in DX. cbn [In] in DX |- *. tauto.
Qed.

(** * The same as the model of the cutouts *)
Lemma mosaics_app {X} (a b : list (hdu X)) : mosaics (a ++ b) = (mosaics a ++ mosaics b)%list.
Proof. apply flat_map_app. Qed.
Lemma ctype_of_name t : ctype_of_ext (ctype_name t ++ "_cutouts") = Some t.
Proof. destruct t; reflexivity. Qed.
Lemma ctype_of_some n t : ctype_of_ext n = Some t -> lower n = (ctype_name t ++ "_cutouts")%string.
Proof. unfold ctype_of_ext. intros H. apply find_some in H. destruct H as [_ H]. apply String.eqb_eq. exact H. Qed.
Lemma lower_name t : lower (ctype_name t ++ "_cutouts") = (ctype_name t ++ "_cutouts")%string.
Proof. destruct t; reflexivity. Qed.

Lemma find_mosaic {X} (f : list (hdu X)) t : mosaics_plain f ->
  hfind f (ctype_name t ++ "_cutouts") = option_map HPix (ext_find (mosaics f) t).
Proof.
  induction f as [|[n d] f IH]; intros P; [reflexivity|]. inversion P as [|? ? P1 P2]; subst. cbn [fst snd] in P1.
  unfold hfind. cbn [find fst]. change (mosaics ((n, d) :: f)) with ((match ctype_of_ext n, d with Some t, HPix l => [(t, l)] | _, _ => [] end ++ mosaics f)%list).
  destruct (ctype_of_ext n) as [u|] eqn:U.
  - destruct (P1 ltac:(discriminate)) as (l & ->). apply ctype_of_some in U. rewrite U, lower_name. cbn [app].
    unfold ext_find. cbn [find fst].
    assert (E : String.eqb (ctype_name u ++ "_cutouts") (ctype_name t ++ "_cutouts") = ctype_eqb u t) by (destruct u, t; reflexivity).
    rewrite E. replace (ctype_eqb t u) with (ctype_eqb u t) by (destruct u, t; reflexivity).
    destruct (ctype_eqb u t); [reflexivity|]. specialize (IH P2). unfold hfind, ext_find in IH. rewrite lower_name in IH. exact IH.
  - cbn [app]. destruct (String.eqb (lower n) _) eqn:E.
    + exfalso. apply String.eqb_eq in E. rewrite lower_name in E. unfold ctype_of_ext in U. rewrite E in U. clear - U. destruct t; discriminate.
    + exact (IH P2).
Qed.

Lemma copied_eq {X} full (f : list (hdu X)) : lowercase f -> mosaics_plain f ->
  mosaics (to_copy full f) =
  filter (fun e => match fst e with TOrmask | TNoise => negb (zlen (snd e) =? 0) | _ => false end) (mosaics f).
Proof.
  induction f as [|[n d] f IH]; intros L P; [reflexivity|]. inversion P as [|? ? P1 P2]; subst. inversion L as [|? ? L1 L2]; subst. cbn [fst snd] in P1, L1.
  specialize (IH L2 P2).
  assert (M : forall g : list (hdu X), mosaics ((n, d) :: g) = (mosaics [(n, d)] ++ mosaics g)%list).
  { intros g. rewrite <- mosaics_app. reflexivity. }
  rewrite M, filter_app, <- IH. unfold to_copy at 1. cbn [filter fst snd].
  assert (E : filter (fun e => match fst e with TOrmask | TNoise => negb (zlen (snd e) =? 0) | _ => false end) (mosaics [(n, d)]) =
              if has_data full d && negb (mem_str n default_ext) then mosaics [(n, d)] else []).
  { unfold mosaics. cbn [flat_map fst snd]. destruct (ctype_of_ext n) as [u|] eqn:U.
    - destruct (P1 ltac:(discriminate)) as (l & ->). apply ctype_of_some in U. rewrite L1 in U. subst n. cbn [app filter fst snd has_data].
      destruct u; cbn; destruct (zlen l =? 0); reflexivity.
    - cbn [app filter]. destruct (_ && _); reflexivity. }
  rewrite E. destruct (_ && _); [rewrite M; reflexivity|reflexivity].
Qed.

Lemma copied_no_psf {X} full (f : list (hdu X)) : lowercase f -> hfind (to_copy full f) "psf" = None.
Proof.
  intros L. destruct (hfind _ _) as [d|] eqn:F; [|reflexivity]. exfalso. apply hfind_in in F. destruct F as (m & I & E).
  apply to_copy_iff in I. destruct I as [I [_ N]]. unfold lowercase in L. rewrite Forall_forall in L. specialize (L _ I). cbn [fst] in *.
  apply N. rewrite <- L, E. cbn. tauto.
Qed.

Lemma meds_of_inv {X} nc pc (f : list (hdu X)) mf : meds_of nc pc f = Some mf ->
  read_obj f = Ok (m_cat mf) /\ hfind f "image_info" = Some (HInfo (m_info mf)) /\ hfind f "psf" = option_map HPix (m_psf mf) /\
  m_ext mf = mosaics f /\ m_number_col mf = nc /\ m_psf_cols mf = pc.
Proof.
  unfold meds_of, read_obj. intros H. destruct (hfind f "object_data") as [[]|]; try discriminate.
  destruct (hfind f "image_info") as [[]|]; try discriminate. destruct (hfind f "psf") as [[]|]; try discriminate;
    injection H as <-; repeat split; reflexivity.
Qed.

Section Same.
  Context {X : Type}.
  Variables (f : list (hdu X)) (mf : medsfile).
  Hypothesis P : mosaics_plain f.
  Hypothesis M : m_ext mf = mosaics f.

  Lemma cut_same a b t : cut_hdu f a b (ctype_name t ++ "_cutouts") =
    let* x := cut_ext mf a b t in Ok [((ctype_name t ++ "_cutouts")%string, HPix (snd x))].
  Proof.
    unfold cut_hdu, cut_ext, read_pix, in_ext. rewrite find_mosaic by exact P. rewrite M. destruct (ext_find _ _) as [m|]; [|reflexivity].
    cbn [option_map bind]. destruct (slice _ _ _); reflexivity.
  Qed.
  Lemma cut_if_same a b t : cut_if_there f a b (ctype_name t ++ "_cutouts") =
    let* x := cut_opt mf a b t in Ok (map (fun e => ((ctype_name t ++ "_cutouts")%string, HPix (snd e))) x).
  Proof.
    unfold cut_if_there, cut_opt. rewrite cut_same. unfold cut_ext, in_ext. rewrite find_mosaic by exact P. rewrite M. destruct (ext_find _ _) as [m|]; [|reflexivity].
    cbn [option_map bind]. destruct (slice _ _ _); reflexivity.
  Qed.
End Same.

Lemma cut_opt_shape mf a b t x : cut_opt mf a b t = Ok x -> x = [] \/ exists l, x = [(t, l)].
Proof.
  unfold cut_opt. destruct (ext_find _ _); intros H; [|injection H as <-; auto]. apply bind_ok in H. destruct H as (y & _ & H). injection H as <-. eauto.
Qed.
Lemma cut_ext_shape mf a b t x : cut_ext mf a b t = Ok x -> fst x = t.
Proof.
  unfold cut_ext. intros H. apply bind_ok in H. destruct H as (m & _ & H). apply bind_ok in H. destruct H as (l & _ & H). injection H as <-. reflexivity.
Qed.

Lemma hfind_cons {X} (h : hdu X) t n : hfind (h :: t) n = if String.eqb (lower (fst h)) (lower n) then Some (snd h) else hfind t n.
Proof. unfold hfind. cbn [find]. destruct (String.eqb _ _); reflexivity. Qed.
Definition mk_ext {X} (e : ctype * list Q) : hdu X := ((ctype_name (fst e) ++ "_cutouts")%string, HPix (snd e)).
Lemma meds_of_facts {X} nc pc (out : list (hdu X)) data i ms p : hfind out "object_data" = Some (HObj data) ->
  hfind out "image_info" = Some (HInfo i) -> hfind out "psf" = option_map HPix p -> mosaics out = ms ->
  meds_of nc pc out = Some (mkMeds data nc pc i ms p).
Proof. unfold meds_of. intros -> -> -> ->. destruct p; reflexivity. Qed.

Lemma meds_of_out {X} nc pc data i (md : hdata X) ms p rest : hfind rest "psf" = None ->
  meds_of nc pc (("object_data"%string, HObj data) :: ("image_info"%string, HInfo i) :: ("metadata"%string, md) :: map mk_ext ms
    ++ (match p with Some x => [("psf"%string, HPix x)] | None => [] end) ++ rest) =
  Some (mkMeds data nc pc i (ms ++ mosaics rest) p).
Proof.
  intros N.
  assert (E : hfind (map mk_ext ms ++ (match p with Some x => [("psf"%string, HPix x)] | None => [] end) ++ rest) "psf" = option_map HPix p).
  { rewrite hfind_app, (hfind_none (map mk_ext ms)), hfind_app.
    - rewrite N. destruct p; reflexivity.
    - intros I. rewrite map_map in I. apply in_map_iff in I. destruct I as (x & I & _). cbn [mk_ext fst] in I. destruct (fst x); discriminate. }
  assert (Q : mosaics (map mk_ext ms ++ (match p with Some x => [("psf"%string, HPix x)] | None => [] end) ++ rest) = (ms ++ mosaics rest)%list).
  { rewrite !mosaics_app. replace (mosaics (match p with Some x => [("psf"%string, @HPix X x)] | None => [] end)) with (@nil (ctype * list Q)) by (destruct p; reflexivity).
    cbn [app]. f_equal. clear. induction ms as [|[t x] ms IH]; [reflexivity|]. cbn [map].
    etransitivity; [exact (mosaics_app [mk_ext (t, x)] (map mk_ext ms))|]. rewrite IH.
    unfold mosaics, mk_ext. cbn [flat_map fst snd]. rewrite ctype_of_name. reflexivity. }
  set (l := (map mk_ext ms ++ (match p with Some x => [("psf"%string, HPix x)] | None => [] end) ++ rest)%list) in *. clearbody l.
  apply meds_of_facts; [reflexivity|reflexivity|rewrite <- E; reflexivity|].
  etransitivity; [exact (mosaics_app [("object_data"%string, HObj data); ("image_info"%string, HInfo i); ("metadata"%string, md)] l)|].
  exact Q.
Qed.

Theorem same {X} full ca nc pc (f : list (hdu X)) mf s e : lowercase f -> mosaics_plain f -> meds_of nc pc f = Some mf ->
  in_file f "metadata" = true ->
  match extract_range ca mf s e with
  | Ok g => exists out, extract_on_disk full ca pc f s e = (out, None) /\ meds_of nc pc out = Some g
  | Err er => snd (extract_on_disk full ca pc f s e) = Some er
  end.
Proof.
  intros L P MO MD. destruct (meds_of_inv _ _ _ _ MO) as (R & II & PS & ME & NC & PC).
  unfold in_file in MD. destruct (hfind f "metadata") as [md|] eqn:MF; [|discriminate].
  rewrite extract_eq. unfold selection, extract_range. rewrite R, PC. cbn [bind].
  destruct (slice _ _ _) as [sub|er]; cbn [bind]; [|reflexivity].
  destruct (row_range sub) as [[a b]|er]; cbn [bind fst]; [|reflexivity].
  rewrite PS.
  assert (PR : match option_map (@HPix X) (m_psf mf) with Some _ => psf_row_range pc (if a =? -1 then sub else map (shift_start a) sub) | None => Ok (-1, -1) end =
               match m_psf mf with Some _ => psf_row_range pc (if a =? -1 then sub else map (shift_start a) sub) | None => Ok (-1, -1) end :> res (Z * Z)).
  { destruct (m_psf mf); reflexivity. }
  rewrite PR. clear PR.
  destruct (match m_psf mf with Some _ => _ | None => _ end) as [[pa pb]|er]; cbn [bind fst]; [|reflexivity].
  set (data := if pa =? -1 then _ else _).
  assert (CO : mosaics (to_copy full f) = copied_ext mf) by (unfold copied_ext; rewrite ME; apply copied_eq; assumption).
  assert (CW : forall out : list (hdu X), go_writes (if ca then map (fun h => Ok [h]) (to_copy full f) else []) out =
                 ((out ++ if ca then to_copy full f else []), None)).
  { intros out. destruct ca; [|rewrite app_nil_r; reflexivity]. rewrite <- (map_map (fun h => [h]) Ok), writes_all. do 2 f_equal.
    clear. induction (to_copy full f) as [|h t IH]; [reflexivity|]. cbn [map concat app]. rewrite IH. reflexivity. }
  assert (CP : hfind (if ca then to_copy full f else []) "psf" = None) by (destruct ca; [apply copied_no_psf; exact L|reflexivity]).
  assert (CM : mosaics (if ca then to_copy full f else []) = if ca then copied_ext mf else []) by (destruct ca; [exact CO|reflexivity]).
  unfold writes, read_table. rewrite II, MF. cbn [bind].
  destruct (a =? -1) eqn:A1.
  - cbn [map dummy_ext app]. cbn [go_writes loop step bind app].
    lazymatch goal with |- context [loop _ ?c ?o] => specialize (CW o) end. unfold go_writes in CW. rewrite CW.
    eexists. split; [reflexivity|]. rewrite <- CM. rewrite NC. exact (meds_of_out nc pc data (m_info mf) md dummy_ext None _ CP).
  - change "image_cutouts"%string with (ctype_name TImage ++ "_cutouts")%string.
    change "weight_cutouts"%string with (ctype_name TWeight ++ "_cutouts")%string.
    change "seg_cutouts"%string with (ctype_name TSeg ++ "_cutouts")%string.
    change "bmask_cutouts"%string with (ctype_name TBmask ++ "_cutouts")%string.
    change "noise_cutouts"%string with (ctype_name TNoise ++ "_cutouts")%string.
    rewrite !(cut_same f mf P ME), !(cut_if_same f mf P ME). cbn [app].
    destruct (cut_ext mf a b TImage) as [im|er] eqn:C1; cbn [bind]; [|reflexivity].
    destruct (cut_ext mf a b TWeight) as [wt|er] eqn:C2; cbn [bind]; [|reflexivity].
    destruct (cut_ext mf a b TSeg) as [sg|er] eqn:C3; cbn [bind]; [|reflexivity].
    destruct (cut_opt mf a b TBmask) as [bm|er] eqn:C4; cbn [bind]; [|reflexivity].
    destruct (cut_opt mf a b TNoise) as [nz|er] eqn:C5; cbn [bind]; [|reflexivity].
    apply cut_ext_shape in C1, C2, C3. apply cut_opt_shape in C4, C5.
    assert (PP : cut_if_there f pa pb "psf" = let* p := match m_psf mf with
                | Some p => let* x := slice p pa pb in Ok (Some x) | None => Ok None end in
                Ok match p with Some x => [("psf"%string, HPix x)] | None => [] end).
    { unfold cut_if_there, cut_hdu, read_pix. rewrite PS. destruct (m_psf mf) as [p|]; [|reflexivity]. cbn [option_map bind].
      destruct (slice _ _ _); reflexivity. }
    rewrite PP. destruct (match m_psf mf with Some p => let* x := slice p pa pb in Ok (Some x) | None => Ok None end) as [p|er]; cbn [bind]; [|reflexivity].
    cbn [go_writes loop step bind].
    lazymatch goal with |- context [loop _ (if ca then _ else _) ?o] => specialize (CW o) end. unfold go_writes in CW. rewrite CW.
    eexists. split; [reflexivity|]. rewrite <- CM.
    pose proof (meds_of_out nc pc data (m_info mf) md ([im; wt; sg] ++ bm ++ nz) p _ CP) as Q.
    rewrite <- !app_assoc in Q. rewrite NC. etransitivity; [|exact Q]. f_equal.
    rewrite !map_app. rewrite <- !app_assoc. cbn [map app mk_ext]. unfold mk_ext. rewrite C1, C2, C3. do 6 f_equal.
    destruct C4 as [->|(l4 & ->)], C5 as [->|(l5 & ->)]; reflexivity.
Qed.
