(** The complete layout: [build_layout] against [laid_out]. *)
From Coq Require Import Lia ZifyBool ZifyNat Sorted.
From Verif Require Import Base BaseLemmas Img Types BoundsM MakerLayout SpecTiles SpecLayout StartLemmas LayoutLemmas.
Ltac Zify.zify_post_hook ::= Z.div_mod_to_equations.

Lemma ssorted_seq n : forall i, StronglySorted Z.lt (map Z.of_nat (seq i n)).
Proof.
  induction n as [|n IH]; intros i; simpl; constructor; [apply IH|].
  apply Forall_forall. intros x Hx. apply in_map_iff in Hx. destruct Hx as (k & <- & Hk).
  apply in_seq in Hk. lia.
Qed.

Lemma ssorted_filter_map {A} (g : A -> Z) (p : A -> bool) l :
  StronglySorted Z.lt (map g l) -> StronglySorted Z.lt (map g (filter p l)).
Proof.
  induction l as [|a l IH]; simpl; intros H; [constructor|].
  inversion H as [|x xs Hs Hf]; subst. destruct (p a); simpl; [|apply IH; exact Hs].
  constructor; [apply IH; exact Hs|]. apply Forall_forall. intros y Hy.
  rewrite Forall_forall in Hf. apply Hf. apply in_map_iff in Hy. destruct Hy as (b & <- & Hb).
  apply filter_In in Hb. apply in_map. apply Hb.
Qed.

Lemma map_fst_combine {A B} (l : list A) (l' : list B) : length l = length l' -> map fst (combine l l') = l.
Proof.
  revert l'; induction l as [|a l IH]; intros [|b l'] H; simpl in *; try discriminate; auto.
  f_equal. apply IH. lia.
Qed.

Lemma map_fst_files images : map fst (files images) = zrange (zlen images).
Proof. unfold files. apply map_fst_combine. rewrite zrange_length. unfold zlen. lia. Qed.

Lemma new_slot_file c f im o s : s_file (new_slot c f im o s) = f.
Proof. unfold new_slot. destruct (w_jac _ _ _ _) as [[[a b] d] e]. reflexivity. Qed.

Lemma new_slot_describes c images f im o o0 s : zget images f = Some im ->
  o_ra o = o_ra o0 -> o_dec o = o_dec o0 -> o_color o = o_color o0 -> o_wcs_color o = o_wcs_color o0 ->
  slot_describes c images o0 (o_box o) (new_slot c f im o s).
Proof.
  intros Him E1 E2 E3 E4. exists im. rewrite new_slot_file.
  assert (EC : color_arg c f o = color_arg c f o0).
  { unfold color_arg, obj_color. rewrite E3, E4. reflexivity. }
  unfold new_slot, pos_of, spec_row, spec_col. rewrite E1, E2, EC.
  destruct (w_pos (im_wcs im) (o_ra o0) (o_dec o0) (color_arg c f o0)) as [col row].
  unfold make_wcs_position. cbn [fst snd zrow zcol wcs_row wcs_col].
  destruct (w_jac (im_wcs im) col row (color_arg c f o0)) as [[[a b] d] e].
  cbn. repeat split; auto.
Qed.

Lemma describes_set_start c images o box s v :
  slot_describes c images o box s -> slot_describes c images o box (set_start s v).
Proof. intros (im & H). exists im. exact H. Qed.

(** Slots of a row after resizing and setting the start rows. *)
Definition final_obj (c : lconf) (nmax : nat) (fs : list (Z * image)) (nslots : Z) (row : Z) (o : obj) : obj :=
  started row (set_slots (spec_obj c nmax fs o) (firstn (Z.to_nat nslots) (o_slots (spec_obj c nmax fs o)))).

Lemma final_slot c nmax fs nslots row o k s :
  zget (o_slots (final_obj c nmax fs nslots row o)) k = Some s ->
  (k < o_ncut (final_obj c nmax fs nslots row o) ->
     exists fi, nth_error (filter (accf c o) fs) (Z.to_nat k) = Some fi /\
       s = set_start (new_slot c (fst fi) (snd fi) o def_slot) (row + k * (o_box o * o_box o))) /\
  (o_ncut (final_obj c nmax fs nslots row o) <= k -> s = def_slot).
Proof.
  intros H. pose proof (zget_Some_range _ _ _ H) as Hr.
  unfold zget in H. destruct (k <? 0) eqn:E0; [lia|].
  unfold final_obj, started in H. cbn [o_slots set_slots] in H.
  rewrite starts_nth in H. cbn [spec_obj o_slots o_ncut set_slots set_ncut o_box] in H.
  set (l := filter (accf c o) fs) in *.
  rewrite nth_error_firstn in H. dif_in H E1; [|discriminate].
  unfold final_obj, started. cbn [o_ncut set_slots spec_obj set_ncut]. fold l.
  destruct (nth_error (map (fun fi => new_slot c (fst fi) (snd fi) o def_slot) l
              ++ repeat def_slot (nmax - length l)) (Z.to_nat k)) as [s0|] eqn:N; [|discriminate].
  inversion H as [Hs]; clear H.
  split.
  - intros Hk. unfold zlen in Hk. rewrite nth_error_app1 in N by (rewrite map_length; lia).
    rewrite nth_error_map in N. destruct (nth_error l (Z.to_nat k)) as [fi|] eqn:N2; [|discriminate].
    exists fi. split; [reflexivity|]. simpl in N. inversion N; subst s0.
    dif E2; [|unfold zlen in E2; lia].
    cbn [o_box set_slots spec_obj set_ncut]. rewrite Z2Nat.id by lia. reflexivity.
  - intros Hk. dif E2; [unfold zlen in *; lia|].
    rewrite nth_error_app2 in N by (rewrite map_length; unfold zlen in *; lia).
    apply nth_error_In in N. apply repeat_spec in N. exact N.
Qed.

Lemma final_files c nmax fs nslots row o : zlen (filter (accf c o) fs) <= nslots ->
  map s_file (firstn (Z.to_nat (o_ncut (final_obj c nmax fs nslots row o)))
                     (o_slots (final_obj c nmax fs nslots row o)))
  = map fst (filter (accf c o) fs).
Proof.
  intros Hn. unfold final_obj, started. cbn [o_slots o_ncut set_slots set_ncut spec_obj o_box].
  set (l := filter (accf c o) fs) in *.
  rewrite firstn_app, map_length. unfold zlen in *. rewrite Nat2Z.id.
  rewrite firstn_all2 with (l := map _ _) by (rewrite map_length; lia).
  remember (map (fun fi => new_slot c (fst fi) (snd fi) o def_slot) l) as ms eqn:Ems.
  assert (Hl : length l = length ms) by (rewrite Ems, map_length; reflexivity).
  rewrite Hl. rewrite starts_firstn by (rewrite app_length; lia).
  rewrite firstn_app, Nat.sub_diag, firstn_all, firstn_O, app_nil_r.
  assert (G : forall n r d sl, map s_file (starts n r d sl) = map s_file sl).
  { induction n as [|n IH]; intros r d [|x sl]; simpl; try reflexivity. rewrite IH. reflexivity. }
  rewrite G, Ems, map_map. apply map_ext. intros fi. apply new_slot_file.
Qed.

Lemma final_laid_out c images nmax nslots row o :
  nslots <= Z.of_nat nmax ->
  zlen (filter (accf c o) (files images)) <= nslots ->
  laid_out c images nslots o
    (final_obj c nmax (files images) nslots row (set_box o (o_box o + o_box o mod 2))).
Proof.
  intros Hs Hl.
  set (o2 := set_box o (o_box o + o_box o mod 2)).
  assert (EF : filter (accf c o2) (files images) = filter (accf c o) (files images)) by reflexivity.
  unfold laid_out. repeat match goal with |- _ /\ _ => split end; try reflexivity.
  - unfold final_obj, started. cbn [o_slots set_slots spec_obj set_ncut].
    unfold zlen in *. rewrite starts_length, firstn_length, app_length, map_length, repeat_length, EF.
    lia.
  - unfold final_obj, started. cbn [o_ncut set_slots spec_obj set_ncut]. rewrite EF. unfold zlen. lia.
  - unfold final_obj, started. cbn [o_ncut set_slots spec_obj set_ncut]. rewrite EF. exact Hl.
  - rewrite final_files by (rewrite EF; exact Hl). apply ssorted_filter_map.
    rewrite map_fst_files. apply ssorted_seq.
  - intros f. rewrite final_files by (rewrite EF; exact Hl). rewrite EF, in_map_iff. split.
    + intros ([f' im] & <- & Hin). apply filter_In in Hin. destruct Hin as [H1 H2].
      exists im. split; [apply In_files; exact H1|]. apply acc_accepted. exact H2.
    + intros (im & H1 & H2). exists (f, im). split; [reflexivity|]. apply filter_In.
      split; [apply In_files; exact H1|]. apply acc_accepted in H2. exact H2.
  - intros k s Hk. apply final_slot in Hk. destruct Hk as [K1 K2]. split; [|exact K2].
    intros Hk. destruct (K1 Hk) as ([f im] & Hf & ->). apply describes_set_start.
    cbn [fst snd]. apply nth_error_In in Hf. apply filter_In in Hf. destruct Hf as [Hf _].
    apply In_files in Hf. apply (new_slot_describes c images f im o2 o def_slot); auto.
Qed.

(** * Trimming *)

Lemma trim_cat_eq c images cat :
  trim_cat c images cat =
  if first_image_is_coadd c && trim_to_coadd c then
    match images with
    | [] => Err IndexError
    | im :: _ => if (length (filter (acc c 0 im) cat) =? 0)%nat then Err AssertionError
                 else Ok (filter (acc c 0 im) cat)
    end
  else Ok cat.
Proof.
  unfold trim_cat. dif E; [|reflexivity]. destruct images as [|im ims]; [reflexivity|].
  rewrite gpb_eq. cbn [bind]. rewrite contains_points_eq, where_widx, widx_map, widx_length, filter_filter.
  change (filter (fun x => w_cut (im_wcs im) (o_ra x) (o_dec x)
     && in_b (bounds_of c 0 im) (pos_of c 0 im x)) cat) with (filter (acc c 0 im) cat).
  dif E2; [reflexivity|].
  pose proof (take_take_widx (fun o => w_cut (im_wcs im) (o_ra o) (o_dec o))
                (fun o => in_b (bounds_of c 0 im) (pos_of c 0 im o)) cat 0 []) as T1.
  cbn [app length] in T1. rewrite T1. cbn [bind].
  apply (take_widx (acc c 0 im) cat []).
Qed.

(** Input objects that remain after the optional trimming. *)
Definition kept (c : lconf) (images : list image) (input : list obj) : list obj :=
  match images with
  | im :: _ => if first_image_is_coadd c && trim_to_coadd c then filter (acc c 0 im) input else input
  | [] => input
  end.

Lemma filter_acc_init c images im input :
  filter (acc c 0 im) (init_cat c images input) = init_cat c images (filter (acc c 0 im) input).
Proof.
  rewrite !init_cat_spec, !map_map, filter_map_comm. f_equal.
Qed.

Lemma started_cat_map cat (g : obj -> obj) (h : Z -> obj -> obj) :
  (forall row o, In o cat -> started row (g o) = h row o) ->
  forall row, Forall2 (fun o o' => exists row, o' = h row o) cat (started_cat row (map g cat)).
Proof.
  induction cat as [|o cat IH]; intros H row; cbn [map started_cat]; constructor.
  - exists row. apply H. left; reflexivity.
  - apply IH. intros r o' Ho'. apply H. right; exact Ho'.
Qed.

Lemma Forall2_impl_in {A B} (P R : A -> B -> Prop) l l' :
  (forall a b, In a l -> P a b -> R a b) -> Forall2 P l l' -> Forall2 R l l'.
Proof.
  intros H HF. induction HF as [|a b l l' Hp HF IH]; constructor.
  - apply H; [left; reflexivity|exact Hp].
  - apply IH. intros a' b' Ha. apply H. right; exact Ha.
Qed.

(** Everything the layout gives, when no error is raised. *)
Lemma finish_layout c images nmax input : input <> [] ->
  over c nmax (files images) input = false -> (2 <= nmax)%nat ->
  exists cat' total nslots,
    (let* cat2 := make_resized (map (spec_obj c nmax (files images))
                    (map (fun o => set_box o (o_box o + o_box o mod 2)) input)) in
     set_start_rows cat2) = Ok (cat', total) /\
    Forall2 (laid_out c images nslots) input cat' /\
    (nslots = 2 \/ exists o', In o' cat' /\ o_ncut o' = nslots) /\ 2 <= nslots /\
    tiles 0 (cut_ranges cat') total.
Proof.
  intros Hne Hn Hn2.
  set (bx := fun o => set_box o (o_box o + o_box o mod 2)).
  set (cat1 := map (spec_obj c nmax (files images)) (map bx input)).
  assert (Hne1 : cat1 <> []).
  { unfold cat1. destruct input; [contradiction|]. discriminate. }
  rewrite make_resized_eq by exact Hne1. cbn [bind].
  set (ns := nslots_of cat1).
  assert (Hns : ns <= Z.of_nat nmax).
  { unfold ns. destruct (nslots_attained cat1) as [E|(o & Ho & E)]; [lia|]. rewrite <- E.
    unfold cat1 in Ho. apply in_map_iff in Ho. destruct Ho as (o' & <- & Ho').
    cbn [o_ncut spec_obj set_ncut]. apply in_map_iff in Ho'. destruct Ho' as (o0 & <- & Ho0).
    pose proof (over_false _ _ _ _ _ Hn Ho0) as G. unfold zlen.
    change (filter (accf c (bx o0)) (files images)) with (filter (accf c o0) (files images)). lia. }
  set (cat2 := map (fun o => set_slots o (firstn (Z.to_nat ns) (o_slots o))) cat1).
  assert (Hwf : Forall (fun o => 0 <= o_ncut o <= zlen (o_slots o)) cat2).
  { apply Forall_forall. intros o Ho. unfold cat2 in Ho. apply in_map_iff in Ho.
    destruct Ho as (o1 & <- & Ho1). cbn [o_ncut o_slots set_slots].
    pose proof (nslots_ge cat1 o1 Ho1) as G1. fold ns in G1.
    unfold cat1 in Ho1. apply in_map_iff in Ho1. destruct Ho1 as (o2 & <- & Ho2).
    cbn [o_ncut o_slots set_slots spec_obj set_ncut] in *.
    unfold zlen in *. rewrite firstn_length, app_length, map_length, repeat_length. lia. }
  rewrite set_start_rows_eq by exact Hwf.
  exists (started_cat 0 cat2), (zsum (map npix_of cat2)), ns. split; [reflexivity|].
  assert (E2 : cat2 = map (fun o => set_slots (spec_obj c nmax (files images) (bx o))
     (firstn (Z.to_nat ns) (o_slots (spec_obj c nmax (files images) (bx o))))) input).
  { unfold cat2, cat1. rewrite !map_map. reflexivity. }
  assert (HF : Forall2 (fun o o' => exists row, o' = final_obj c nmax (files images) ns row (bx o))
            input (started_cat 0 cat2)).
  { rewrite E2. apply started_cat_map. intros row o _. reflexivity. }
  split; [|split; [|split]].
  - revert HF. apply Forall2_impl_in. intros o o' Ho (row & ->).
    apply final_laid_out; [exact Hns|].
    change (filter (accf c o) (files images)) with (filter (accf c (bx o)) (files images)).
    change (zlen (filter (accf c (bx o)) (files images))) with (o_ncut (spec_obj c nmax (files images) (bx o))).
    apply nslots_ge. unfold cat1. apply in_map. apply in_map. exact Ho.
  - destruct (nslots_attained cat1) as [E|(o & Ho & E)]; [left; exact E|right].
    unfold cat1 in Ho. rewrite map_map in Ho. apply in_map_iff in Ho. destruct Ho as (o0 & <- & Ho).
    assert (G : forall l l', Forall2 (fun o o' => exists row, o' = final_obj c nmax (files images) ns row (bx o)) l l' ->
       In o0 l -> exists row, In (final_obj c nmax (files images) ns row (bx o0)) l').
    { clear. intros l l' HF. induction HF as [|a b l l' (row & ->) HF IH]; intros Hin; [contradiction|].
      destruct Hin as [->|Hin]; [exists row; left; reflexivity|].
      destruct (IH Hin) as (r & Hr). exists r. right; exact Hr. }
    destruct (G _ _ HF Ho) as (row & Hr). eexists. split; [exact Hr|]. exact E.
  - apply nslots_ge2.
  - rewrite zsum_eq. pose proof (started_cat_tiles cat2 Hwf 0) as T. rewrite Z.add_0_l in T. exact T.
Qed.

(** [build_layout] on the maker's catalog, all outcomes. *)
Lemma build_layout_cases c images input :
  build_layout c images (init_cat c images input) =
  if first_image_is_coadd c && trim_to_coadd c && (zlen images =? 0) then Err IndexError
  else if first_image_is_coadd c && trim_to_coadd c && (length (kept c images input) =? 0)%nat
  then Err AssertionError
  else match match images with im :: _ => file_err c (kept c images input) 0 im | [] => None end with
       | Some e => Err e
       | None =>
         if over c (Z.to_nat (nmax_of c images)) (files images) (kept c images input) then Err IndexError
         else let* cat2 := make_resized (map (spec_obj c (Z.to_nat (nmax_of c images)) (files images))
                      (map (fun o => set_box o (o_box o + o_box o mod 2)) (kept c images input))) in
              set_start_rows cat2
       end.
Proof.
  unfold build_layout. rewrite trim_cat_eq.
  assert (G : forall l, (let* cat1 := foldM (layout_file c) (files images) (init_cat c images l) in
        let* cat2 := make_resized cat1 in set_start_rows cat2) =
       match match images with im :: _ => file_err c l 0 im | [] => None end with
         | Some e => Err e
         | None =>
           if over c (Z.to_nat (nmax_of c images)) (files images) l then Err IndexError
           else let* cat2 := make_resized (map (spec_obj c (Z.to_nat (nmax_of c images)) (files images))
                      (map (fun o => set_box o (o_box o + o_box o mod 2)) l)) in
                   set_start_rows cat2
       end).
  { intros l. rewrite init_cat_spec. rewrite layout_loop.
    assert (EE : forall im, file_err c (map (fun o => set_box o (o_box o + o_box o mod 2)) l) 0 im = file_err c l 0 im).
    { intros im. unfold file_err. rewrite filter_map_comm, !map_length. reflexivity. }
    assert (EO : over c (Z.to_nat (nmax_of c images)) (files images)
                   (map (fun o => set_box o (o_box o + o_box o mod 2)) l)
                 = over c (Z.to_nat (nmax_of c images)) (files images) l).
    { unfold over. clear. induction l as [|o l IH]; [reflexivity|]. cbn [map existsb]. rewrite IH. reflexivity. }
    rewrite EO. destruct images as [|im ims]; [|rewrite EE; destruct (file_err c l 0 im); [reflexivity|]];
      destruct (over _ _ _ l); reflexivity. }
  fold (files images).
  destruct images as [|im ims].
  - cbn [kept]. change (zlen (@nil image)) with 0. rewrite Z.eqb_refl, andb_true_r.
    destruct (first_image_is_coadd c && trim_to_coadd c) eqn:E; cbn [andb]; [reflexivity|].
    cbn [bind]. apply G.
  - rewrite filter_acc_init. cbn [kept].
    assert (L : forall l, length (init_cat c (im :: ims) l) = length l)
      by (intros l; rewrite init_cat_spec, !map_length; reflexivity).
    assert (EZ : zlen (im :: ims) =? 0 = false) by (rewrite zlen_cons; pose proof (zlen_nonneg ims); lia).
    rewrite EZ, andb_false_r.
    destruct (first_image_is_coadd c && trim_to_coadd c) eqn:E; cbn [andb].
    + rewrite L. dif E2; [reflexivity|]. cbn [bind]. apply G.
    + cbn [bind]. apply G.
Qed.
