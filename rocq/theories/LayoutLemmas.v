(** The layout loops of the maker refine the per-object specification. *)
From Coq Require Import Lia ZifyBool ZifyNat Sorted.
From Verif Require Import Base BaseLemmas Img Types BoundsM MakerLayout SpecTiles SpecLayout StartLemmas.
Ltac Zify.zify_post_hook ::= Z.div_mod_to_equations.

(** * numpy index selections *)

Fixpoint widx {A} (p : A -> bool) (l : list A) (n : nat) : list nat :=
  match l with
  | [] => []
  | x :: l' => if p x then n :: widx p l' (S n) else widx p l' (S n)
  end.

Lemma where_widx {A} (p : A -> bool) l : where_ (map p l) = widx p l 0.
Proof.
  unfold where_. rewrite map_length. generalize 0%nat as n.
  induction l as [|x l IH]; intros n; simpl; [reflexivity|].
  destruct (p x); simpl; rewrite IH; reflexivity.
Qed.

Lemma widx_length {A} (p : A -> bool) l n : length (widx p l n) = length (filter p l).
Proof. revert n; induction l as [|x l IH]; intros n; simpl; [reflexivity|]. destruct (p x); simpl; auto. Qed.

Lemma take_widx {A} (p : A -> bool) l pre :
  take (pre ++ l) (widx p l (length pre)) = Ok (filter p l).
Proof.
  revert pre; induction l as [|x l IH]; intros pre; simpl; [reflexivity|].
  specialize (IH (pre ++ [x])). rewrite <- app_assoc, app_length, Nat.add_1_r in IH. simpl in IH.
  destruct (p x).
  - unfold take in *. cbn [mapM]. rewrite nth_app_mid. cbn [bind]. rewrite IH. reflexivity.
  - exact IH.
Qed.

Lemma take_where {A} (p : A -> bool) l : take l (where_ (map p l)) = Ok (filter p l).
Proof. rewrite where_widx. apply (take_widx p l []). Qed.

Lemma take_take_widx {A} (p r : A -> bool) l : forall n pre,
  take (pre ++ widx p l n) (widx r (filter p l) (length pre)) =
  Ok (widx (fun x => p x && r x) l n).
Proof.
  induction l as [|x l IH]; intros n pre; simpl; [reflexivity|].
  destruct (p x); simpl; [|apply IH].
  specialize (IH (S n) (pre ++ [n])). rewrite <- app_assoc, app_length, Nat.add_1_r in IH.
  simpl in IH. destruct (r x).
  - unfold take in *. cbn [mapM]. rewrite nth_app_mid. cbn [bind]. rewrite IH. reflexivity.
  - exact IH.
Qed.

Lemma filter_filter {A} (p r : A -> bool) l : filter r (filter p l) = filter (fun x => p x && r x) l.
Proof.
  induction l as [|x l IH]; simpl; [reflexivity|]. destruct (p x); simpl; [|exact IH].
  destruct (r x); rewrite IH; reflexivity.
Qed.

Lemma widx_map {A B} (p : B -> bool) (g : A -> B) l n : widx p (map g l) n = widx (fun x => p (g x)) l n.
Proof. revert n; induction l as [|x l IH]; intros n; simpl; [reflexivity|]. rewrite !IH. reflexivity. Qed.

Lemma filter_map_comm {A B} (p : B -> bool) (g : A -> B) l :
  filter p (map g l) = map g (filter (fun x => p (g x)) l).
Proof. induction l as [|x l IH]; simpl; [reflexivity|]. destruct (p (g x)); simpl; rewrite IH; reflexivity. Qed.

(** * Clipping to the bounds is the identity on contained positions *)

Lemma qleb_le a b : qleb a b = true <-> (a <= b)%Q.
Proof. apply Qle_bool_iff. Qed.

Lemma qltb_lt a b : qltb a b = true <-> (a < b)%Q.
Proof.
  unfold qltb. rewrite negb_true_iff. rewrite <- not_true_iff_false, Qle_bool_iff.
  split; intros H; [apply Qnot_le_lt; exact H|apply Qlt_not_le; exact H].
Qed.

Lemma qclip_id x lo hi : qleb lo x = true -> qleb x hi = true -> qclip x lo hi = x.
Proof.
  intros H1 H2. unfold qclip, qltb, qleb in *. rewrite H1. simpl. rewrite H2. reflexivity.
Qed.

Definition in_b (b : bounds) (p : wpos) : bool := contains_point b (zrow p) (zcol p).

Lemma contains_points_eq b (pos : list wpos) :
  contains_points b (map (fun p => (zrow p, zcol p)) pos) = map (in_b b) pos.
Proof. unfold contains_points. rewrite map_map. reflexivity. Qed.

Lemma force_identity b pos :
  force_into_bounds (where_ (map (in_b b) pos)) pos b =
  if (length (filter (in_b b) pos) =? 0)%nat then Err ValueError else Ok pos.
Proof.
  unfold force_into_bounds. rewrite take_where. cbn [bind].
  destruct (filter (in_b b) pos) as [|p0 ps] eqn:EF; [reflexivity|].
  cbn [length Nat.eqb map qmin bind].
  assert (HF : forall idx, (forall i, In i idx -> exists p, nth_error pos i = Some p /\ in_b b p = true) ->
     fold_left (fun ps i =>
       match nth_error ps i with
       | Some p => upd ps i (mkWpos (wcs_row p) (wcs_col p)
                            (qclip (zrow p) (rowmin b) (rowmax b))
                            (qclip (zcol p) (colmin b) (colmax b)))
       | None => ps end) idx pos = pos).
  { induction idx as [|i idx IH]; intros H; simpl; [reflexivity|].
    destruct (H i) as (p & Hp & Hb); [left; reflexivity|]. rewrite Hp.
    unfold in_b, contains_point in Hb. rewrite !andb_true_iff in Hb. destruct Hb as (((B1 & B2) & B3) & B4).
    rewrite !qclip_id by assumption.
    assert (E : mkWpos (wcs_row p) (wcs_col p) (zrow p) (zcol p) = p) by (destruct p; reflexivity).
    rewrite E, upd_same by exact Hp. apply IH. intros j Hj; apply H; right; exact Hj. }
  rewrite HF.
  - rewrite take_where. cbn [bind]. rewrite contains_points_eq, EF.
    assert (E : forallb (fun x => x) (map (in_b b) (p0 :: ps)) = true).
    { rewrite <- EF. apply forallb_forall. intros x Hx. apply in_map_iff in Hx.
      destruct Hx as (p & <- & Hp). apply filter_In in Hp. apply Hp. }
    rewrite E. reflexivity.
  - rewrite where_widx. intros i Hi.
    assert (G : forall (l : list wpos) n i, In i (widx (in_b b) l n) ->
       exists p, (n <= i)%nat /\ nth_error l (i - n) = Some p /\ in_b b p = true).
    { induction l as [|x l IH]; intros n j Hj; simpl in Hj; [contradiction|].
      destruct (in_b b x) eqn:E.
      - destruct Hj as [<-|Hj].
        + exists x. rewrite Nat.sub_diag. auto.
        + apply IH in Hj. destruct Hj as (p & H1 & H2 & H3). exists p. split; [lia|].
          replace (j - n)%nat with (S (j - S n)) by lia. auto.
      - apply IH in Hj. destruct Hj as (p & H1 & H2 & H3). exists p. split; [lia|].
        replace (j - n)%nat with (S (j - S n)) by lia. auto. }
    apply G in Hi. destruct Hi as (p & _ & Hn & Hb). rewrite Nat.sub_0_r in Hn. exists p; auto.
Qed.

(** * One file *)

Definition pos_of (c : lconf) (f : Z) (im : image) (o : obj) : wpos :=
  let cr := w_pos (im_wcs im) (o_ra o) (o_dec o) (color_arg c f o) in
  make_wcs_position (snd cr) (fst cr) (im_offset im) false.

Definition bounds_of (c : lconf) (f : Z) (im : image) : bounds :=
  let b := get_image_bounds im in
  if (f =? 0) && first_image_is_coadd c
  then let d := coadd_bounds_buffer_rowcol c in
       mkBounds (rowmin b - d)%Q (rowmax b + d)%Q (colmin b - d)%Q (colmax b + d)%Q
  else b.

Definition acc (c : lconf) (f : Z) (im : image) (o : obj) : bool :=
  w_cut (im_wcs im) (o_ra o) (o_dec o) && in_b (bounds_of c f im) (pos_of c f im o).

Lemma gpb_eq c cat im f :
  get_pos_and_bounds c cat im f =
  Ok (map (pos_of c f im) (filter (fun o => w_cut (im_wcs im) (o_ra o) (o_dec o)) cat),
      bounds_of c f im,
      widx (fun o => w_cut (im_wcs im) (o_ra o) (o_dec o)) cat 0).
Proof.
  unfold get_pos_and_bounds. rewrite take_where. cbn [bind]. rewrite where_widx. reflexivity.
Qed.

Definition new_slot (c : lconf) (f : Z) (im : image) (o : obj) (s : slot) : slot :=
  let p := pos_of c f im o in
  let osr := qtrunc (zrow p) - o_box o / 2 + 1 in
  let osc := qtrunc (zcol p) - o_box o / 2 + 1 in
  let '(dudcol, dudrow, dvdcol, dvdrow) :=
      w_jac (im_wcs im) (wcs_col p) (wcs_row p) (color_arg c f o) in
  mkSlot f (s_start s) (zrow p) (zcol p) osr osc
         (zrow p - inject_Z osr)%Q (zcol p - inject_Z osc)%Q
         dudrow dudcol dvdrow dvdcol
         (s_psf_nr s) (s_psf_nc s) (s_psf_box s) (s_psf_crow s) (s_psf_ccol s) (s_psf_start s).

Definition add_cut (c : lconf) (f : Z) (im : image) (o : obj) : obj :=
  match nth_error (o_slots o) (Z.to_nat (o_ncut o)) with
  | Some s => set_ncut (set_slots o (upd (o_slots o) (Z.to_nat (o_ncut o)) (new_slot c f im o s))) (o_ncut o + 1)
  | None => o
  end.

Lemma set_cutout_eq c im f o : 0 <= o_ncut o < zlen (o_slots o) ->
  set_cutout c im f o (pos_of c f im o) = Ok (add_cut c f im o).
Proof.
  intros H. unfold set_cutout, add_cut, new_slot.
  destruct (w_jac (im_wcs im) (wcs_col (pos_of c f im o)) (wcs_row (pos_of c f im o)) (color_arg c f o))
    as [[[a b] c0] d].
  destruct (o_ncut o <? 0) eqn:E; [lia|].
  unfold modify. destruct (nth_error (o_slots o) (Z.to_nat (o_ncut o))) as [s|] eqn:N.
  - reflexivity.
  - apply nth_error_None in N. unfold zlen in H. lia.
Qed.

Lemma set_cutout_full c im f o p : zlen (o_slots o) <= o_ncut o ->
  set_cutout c im f o p = Err IndexError.
Proof.
  intros H. unfold set_cutout.
  destruct (w_jac (im_wcs im) (wcs_col p) (wcs_row p) (color_arg c f o)) as [[[a b] c0] d].
  destruct (o_ncut o <? 0) eqn:E; [reflexivity|].
  unfold modify. destruct (nth_error (o_slots o) (Z.to_nat (o_ncut o))) as [s|] eqn:N; [|reflexivity].
  assert (nth_error (o_slots o) (Z.to_nat (o_ncut o)) <> None) as N' by congruence.
  apply nth_error_Some in N'. unfold zlen in H. lia.
Qed.

Lemma foldM_set_cutouts c im f (a : obj -> bool) l : forall pre,
  (forall o, In o l -> a o = true -> 0 <= o_ncut o) ->
  foldM (set_cutout_at c im f)
    (combine (widx a l (length pre)) (map (pos_of c f im) (filter a l))) (pre ++ l)
  = if existsb (fun o => a o && (zlen (o_slots o) <=? o_ncut o)) l then Err IndexError
    else Ok (pre ++ map (fun o => if a o then add_cut c f im o else o) l).
Proof.
  induction l as [|o l IH]; intros pre H; simpl; [reflexivity|].
  destruct (a o) eqn:E.
  - cbn [map combine foldM andb]. unfold set_cutout_at at 1. cbn [fst snd]. rewrite nth_app_mid.
    destruct (zlen (o_slots o) <=? o_ncut o) eqn:EF; cbn [orb].
    { rewrite set_cutout_full by lia. reflexivity. }
    assert (0 <= o_ncut o) by (apply H; [left; reflexivity|exact E]).
    rewrite set_cutout_eq by lia. cbn [bind].
    rewrite upd_app_mid.
    specialize (IH (pre ++ [add_cut c f im o])). rewrite app_length, Nat.add_1_r in IH.
    rewrite <- !app_assoc in IH. apply IH. intros o' Ho'. apply H. right; exact Ho'.
  - cbn [andb orb]. specialize (IH (pre ++ [o])). rewrite app_length, Nat.add_1_r in IH.
    rewrite <- !app_assoc in IH. apply IH. intros o' Ho'. apply H. right; exact Ho'.
Qed.

Lemma layout_file_eq c cat f im :
  (forall o, In o cat -> acc c f im o = true -> 0 <= o_ncut o) ->
  layout_file c cat (f, im) =
  let n := length (filter (acc c f im) cat) in
  if first_image_is_coadd c && (f =? 0) && force_into_coadd_bounds c && (n =? 0)%nat
  then Err ValueError
  else if first_image_is_coadd c && check_in_coadd c && (f =? 0) && negb (length cat =? n)%nat
  then Err MEDSCreationError
  else if existsb (fun o => acc c f im o && (zlen (o_slots o) <=? o_ncut o)) cat then Err IndexError
  else Ok (map (fun o => if acc c f im o then add_cut c f im o else o) cat).
Proof.
  intros Hcap. unfold layout_file. rewrite gpb_eq. cbn [bind].
  set (cut := fun o => w_cut (im_wcs im) (o_ra o) (o_dec o)).
  set (inb := fun o => in_b (bounds_of c f im) (pos_of c f im o)).
  rewrite contains_points_eq.
  assert (EA : forall o, cut o && inb o = acc c f im o) by reflexivity.
  assert (EAF : filter (fun o => cut o && inb o) cat = filter (acc c f im) cat) by reflexivity.
  rewrite force_identity.
  rewrite filter_map_comm, map_length. fold inb. rewrite filter_filter.
  rewrite where_widx, widx_map, widx_length. fold inb. rewrite filter_filter.
  change (filter (fun x => cut x && inb x) cat) with (filter (acc c f im) cat).
  cbv zeta.
  destruct (first_image_is_coadd c && (f =? 0) && force_into_coadd_bounds c) eqn:E1; cbn [andb].
  - destruct (length (filter (acc c f im) cat) =? 0)%nat eqn:E2; [reflexivity|]. cbn [bind].
    destruct (first_image_is_coadd c && check_in_coadd c && (f =? 0)
      && negb (length cat =? length (filter (acc c f im) cat))%nat) eqn:E3; [reflexivity|].
    pose proof (take_take_widx cut inb cat 0 []) as T1. cbn [app length] in T1. rewrite T1. cbn [bind].
    pose proof (take_widx (in_b (bounds_of c f im)) (map (pos_of c f im) (filter cut cat)) []) as T2.
    cbn [app length] in T2. rewrite widx_map in T2. fold inb in T2. rewrite T2. cbn [bind].
    rewrite filter_map_comm. fold inb. rewrite filter_filter.
    apply (foldM_set_cutouts c im f (acc c f im) cat []). exact Hcap.
  - cbn [bind].
    destruct (first_image_is_coadd c && check_in_coadd c && (f =? 0)
      && negb (length cat =? length (filter (acc c f im) cat))%nat) eqn:E3; [reflexivity|].
    pose proof (take_take_widx cut inb cat 0 []) as T1. cbn [app length] in T1. rewrite T1. cbn [bind].
    pose proof (take_widx (in_b (bounds_of c f im)) (map (pos_of c f im) (filter cut cat)) []) as T2.
    cbn [app length] in T2. rewrite widx_map in T2. fold inb in T2. rewrite T2. cbn [bind].
    rewrite filter_map_comm. fold inb. rewrite filter_filter.
    apply (foldM_set_cutouts c im f (acc c f im) cat []). exact Hcap.
Qed.

(** * All files *)

Definition accf (c : lconf) (o : obj) (fi : Z * image) : bool := acc c (fst fi) (snd fi) o.

(** Row of the catalog after the files [fs] are done. *)
Definition spec_obj (c : lconf) (nmax : nat) (fs : list (Z * image)) (o : obj) : obj :=
  let l := filter (accf c o) fs in
  set_ncut (set_slots o (map (fun fi => new_slot c (fst fi) (snd fi) o def_slot) l
                         ++ repeat def_slot (nmax - length l))) (zlen l).

Lemma acc_spec_obj c nmax fs f im o : acc c f im (spec_obj c nmax fs o) = acc c f im o.
Proof. reflexivity. Qed.

Lemma new_slot_spec_obj c nmax fs f im o s :
  new_slot c f im (spec_obj c nmax fs o) s = new_slot c f im o s.
Proof. reflexivity. Qed.

Lemma filter_length_le {A} (p : A -> bool) l : (length (filter p l) <= length l)%nat.
Proof. induction l as [|x l IH]; simpl; [lia|]. destruct (p x); simpl; lia. Qed.

Lemma spec_obj_step c nmax fs f im o : (length (filter (accf c o) (fs ++ [(f, im)])) <= nmax)%nat ->
  spec_obj c nmax (fs ++ [(f, im)]) o =
  if acc c f im o then add_cut c f im (spec_obj c nmax fs o) else spec_obj c nmax fs o.
Proof.
  intros Hn. rewrite filter_app in Hn. cbn [filter] in Hn. unfold accf at 2 in Hn. cbn [fst snd] in Hn.
  unfold spec_obj at 1. rewrite filter_app. cbn [filter]. unfold accf at 2 4 6. cbn [fst snd].
  destruct (acc c f im o) eqn:E.
  - rewrite app_length in Hn. simpl in Hn.
    unfold add_cut. cbn [spec_obj o_slots o_ncut set_ncut set_slots].
    set (l := filter (accf c o) fs) in *.
    set (ms := map (fun fi => new_slot c (fst fi) (snd fi) o def_slot) l).
    assert (HL : Z.to_nat (zlen l) = length ms) by (unfold zlen, ms; rewrite map_length; lia).
    rewrite HL.
    replace (nmax - length l)%nat with (S (nmax - length l - 1)) by lia. cbn [repeat].
    rewrite nth_app_mid, upd_app_mid.
    rewrite map_app, app_length. cbn [map length].
    replace (nmax - (length l + 1))%nat with (nmax - length l - 1)%nat by lia.
    rewrite zlen_app. unfold set_ncut, set_slots; cbn. rewrite <- app_assoc. reflexivity.
  - rewrite app_nil_r. reflexivity.
Qed.

Definition file_err (c : lconf) (cat : list obj) (f : Z) (im : image) : option err :=
  let n := length (filter (acc c f im) cat) in
  if first_image_is_coadd c && (f =? 0) && force_into_coadd_bounds c && (n =? 0)%nat
  then Some ValueError
  else if first_image_is_coadd c && check_in_coadd c && (f =? 0) && negb (length cat =? n)%nat
  then Some MEDSCreationError
  else None.

Lemma filter_acc_spec c nmax fs f im cat :
  length (filter (acc c f im) (map (spec_obj c nmax fs) cat)) = length (filter (acc c f im) cat).
Proof.
  rewrite filter_map_comm, map_length.
  rewrite (filter_ext (fun x => acc c f im (spec_obj c nmax fs x)) (acc c f im)); reflexivity.
Qed.

(** Some object is accepted by more images than there are slots. *)
Definition over (c : lconf) (nmax : nat) (fs : list (Z * image)) (cat : list obj) : bool :=
  existsb (fun o => (nmax <? length (filter (accf c o) fs))%nat) cat.

Lemma over_false c nmax fs cat o : over c nmax fs cat = false -> In o cat ->
  (length (filter (accf c o) fs) <= nmax)%nat.
Proof.
  intros H Ho. destruct (Nat.ltb_spec nmax (length (filter (accf c o) fs))) as [L|L]; [|lia].
  exfalso. assert (over c nmax fs cat = true); [|congruence].
  apply existsb_exists. exists o. split; [exact Ho|]. apply Nat.ltb_lt. exact L.
Qed.

Lemma over_app c nmax fs fs' cat : over c nmax fs cat = true -> over c nmax (fs ++ fs') cat = true.
Proof.
  intros H. apply existsb_exists in H. destruct H as (o & Ho & H). apply existsb_exists. exists o.
  split; [exact Ho|]. rewrite filter_app, app_length. lia.
Qed.

Lemma layout_file_step c nmax fs f im cat : over c nmax fs cat = false ->
  layout_file c (map (spec_obj c nmax fs) cat) (f, im) =
  match file_err c cat f im with
  | Some e => Err e
  | None => if over c nmax (fs ++ [(f, im)]) cat then Err IndexError
            else Ok (map (spec_obj c nmax (fs ++ [(f, im)])) cat)
  end.
Proof.
  intros Hn. rewrite layout_file_eq.
  - cbv zeta. unfold file_err. rewrite filter_acc_spec, map_length.
    dif E1; [reflexivity|]. dif E2; [reflexivity|].
    assert (EO : existsb (fun o => acc c f im o && (zlen (o_slots o) <=? o_ncut o))
                   (map (spec_obj c nmax fs) cat) = over c nmax (fs ++ [(f, im)]) cat).
    { unfold over. clear -Hn. induction cat as [|o cat IH]; [reflexivity|].
      pose proof (over_false c nmax fs (o :: cat) o Hn (or_introl eq_refl)) as H1.
      cbn [map existsb]. f_equal.
      - rewrite acc_spec_obj. cbn [spec_obj o_slots o_ncut set_slots set_ncut]. rewrite filter_app.
        cbn [filter]. change (accf c o (f, im)) with (acc c f im o). unfold zlen.
        rewrite app_length, map_length, repeat_length, app_length.
        destruct (acc c f im o); simpl; lia.
      - apply IH. unfold over in *. cbn [existsb] in Hn. apply orb_false_iff in Hn. apply Hn. }
    rewrite EO. dif E3; [reflexivity|].
    rewrite map_map. f_equal. apply map_ext_in. intros o Ho.
    rewrite spec_obj_step by (apply (over_false c nmax _ cat); assumption). reflexivity.
  - intros o Ho _. apply in_map_iff in Ho. destruct Ho as (o' & <- & _).
    cbn [spec_obj o_ncut set_ncut]. apply zlen_nonneg.
Qed.

Lemma foldM_files c nmax cat fs : forall done, over c nmax done cat = false ->
  (forall fi, In fi fs -> file_err c cat (fst fi) (snd fi) = None) ->
  foldM (layout_file c) fs (map (spec_obj c nmax done) cat) =
  if over c nmax (done ++ fs) cat then Err IndexError
  else Ok (map (spec_obj c nmax (done ++ fs)) cat).
Proof.
  induction fs as [|[f im] fs IH]; intros done Hn He; cbn [foldM].
  - rewrite app_nil_r, Hn. reflexivity.
  - rewrite layout_file_step by exact Hn.
    pose proof (He (f, im) (or_introl eq_refl)) as E0. cbn [fst snd] in E0. rewrite E0.
    replace (done ++ (f, im) :: fs) with ((done ++ [(f, im)]) ++ fs) by (rewrite <- app_assoc; reflexivity).
    destruct (over c nmax (done ++ [(f, im)]) cat) eqn:E1; cbn [bind].
    + rewrite over_app by exact E1. reflexivity.
    + apply IH; [exact E1|]. intros fi Hfi. apply He. right; exact Hfi.
Qed.

Definition files (images : list image) : list (Z * image) := combine (zrange (zlen images)) images.

Lemma files_length images : length (files images) = length images.
Proof.
  unfold files. rewrite combine_length, zrange_length. unfold zlen. lia.
Qed.

Lemma files_nth images k : nth_error (files images) k =
  match nth_error images k with Some im => Some (Z.of_nat k, im) | None => None end.
Proof.
  unfold files, zrange, zlen. rewrite Nat2Z.id.
  assert (G : forall (l : list image) i k, nth_error (combine (map Z.of_nat (seq i (length l))) l) k =
     match nth_error l k with Some im => Some (Z.of_nat (i + k), im) | None => None end).
  { induction l as [|x l IH]; intros i [|m]; simpl; auto.
    - rewrite Nat.add_0_r. reflexivity.
    - rewrite IH. destruct (nth_error l m); [|reflexivity]. do 3 f_equal. lia. }
  rewrite G. reflexivity.
Qed.

Lemma In_files images f im : In (f, im) (files images) <-> zget images f = Some im.
Proof.
  split.
  - intros H. apply In_nth_error in H. destruct H as (k & Hk). rewrite files_nth in Hk.
    destruct (nth_error images k) eqn:E; [|discriminate]. inversion Hk; subst. rewrite zget_nat. exact E.
  - intros H. pose proof (zget_Some_range _ _ _ H) as Hr.
    unfold zget in H. destruct (f <? 0) eqn:E; [lia|].
    apply nth_error_In with (n := Z.to_nat f). rewrite files_nth, H. do 2 f_equal. lia.
Qed.

Lemma file_err_nonzero c cat f im : f <> 0 -> file_err c cat f im = None.
Proof.
  intros H. unfold file_err. assert (E : f =? 0 = false) by lia. rewrite E.
  rewrite !andb_false_r. reflexivity.
Qed.

Lemma over_nil c nmax cat : over c nmax [] cat = false.
Proof. unfold over. induction cat as [|o cat IH]; [reflexivity|]. simpl. exact IH. Qed.

Lemma over_enough c nmax cat fs : (length fs <= nmax)%nat -> over c nmax fs cat = false.
Proof.
  intros H. unfold over. induction cat as [|o cat IH]; [reflexivity|]. cbn [existsb].
  rewrite IH. pose proof (filter_length_le (accf c o) fs). rewrite orb_false_r. lia.
Qed.

(** The loop over all files: the coadd errors can only come from image 0. *)
Lemma layout_loop c nmax cat images :
  foldM (layout_file c) (files images) (map (spec_obj c nmax []) cat) =
  match match images with im :: _ => file_err c cat 0 im | [] => None end with
  | Some e => Err e
  | None => if over c nmax (files images) cat then Err IndexError
            else Ok (map (spec_obj c nmax (files images)) cat)
  end.
Proof.
  destruct images as [|im0 ims].
  { change (files []) with (@nil (Z * image)). rewrite over_nil. reflexivity. }
  destruct (file_err c cat 0 im0) as [e|] eqn:E.
  - assert (F : exists rest, files (im0 :: ims) = (0, im0) :: rest).
    { pose proof (files_nth (im0 :: ims) 0) as F0. simpl nth_error at 2 in F0.
      destruct (files (im0 :: ims)) as [|x rest]; [discriminate|]. simpl in F0. inversion F0; subst.
      exists rest; reflexivity. }
    destruct F as (rest & ->). cbn [foldM].
    rewrite layout_file_step by apply over_nil. rewrite E. reflexivity.
  - apply (foldM_files c nmax cat (files (im0 :: ims)) []).
    + apply over_nil.
    + intros [f im] Hin. cbn [fst snd]. apply In_files in Hin.
      destruct (Z.eq_dec f 0) as [->|Hf]; [|apply file_err_nonzero; exact Hf].
      unfold zget in Hin. simpl in Hin. inversion Hin; subst. exact E.
Qed.

Lemma init_cat_spec c images input :
  init_cat c images input =
  map (spec_obj c (Z.to_nat (nmax_of c images)) [])
      (map (fun o => set_box o (o_box o + o_box o mod 2)) input).
Proof.
  unfold init_cat, force_box_even, full_obj_data. rewrite !map_map. apply map_ext. intros o.
  unfold spec_obj. cbn [filter map length app set_box set_slots set_ncut o_box o_id o_number o_ra o_dec o_color
    o_wcs_color o_psf_color o_psf_nr o_psf_nc o_psf_box o_ncut o_slots zlen].
  rewrite Nat.sub_0_r. destruct (negb (o_box o mod 2 =? 0)) eqn:E.
  - assert (o_box o mod 2 = 1) as -> by lia. reflexivity.
  - assert (o_box o mod 2 = 0) as -> by lia. rewrite Z.add_0_r. reflexivity.
Qed.

(** * Resizing *)

Lemma fold_left_max l : forall a, a <= fold_left Z.max l a /\ (forall x, In x l -> x <= fold_left Z.max l a) /\
  (fold_left Z.max l a = a \/ In (fold_left Z.max l a) l).
Proof.
  induction l as [|x l IH]; intros a; simpl.
  - split; [lia|]. split; [contradiction|]. left; reflexivity.
  - destruct (IH (Z.max a x)) as (I1 & I2 & I3). split; [lia|]. split.
    + intros y [->|Hy]; [lia|]. apply I2; exact Hy.
    + destruct I3 as [E|E]; [|right; right; exact E].
      destruct (Z.max_spec a x) as [[_ M]|[_ M]]; rewrite M in E at 2; [right; left|left]; lia.
Qed.

Definition nslots_of (cat : list obj) : Z := fold_left Z.max (map o_ncut cat) 2.

Lemma make_resized_eq cat : cat <> [] ->
  make_resized cat = Ok (map (fun o => set_slots o (firstn (Z.to_nat (nslots_of cat)) (o_slots o))) cat).
Proof.
  intros H. unfold make_resized, nslots_of. destruct cat as [|o cat]; [contradiction|].
  cbn [map zmax_list bind fold_left].
  assert (E : forall l a, fold_left Z.max l (Z.max 2 a) = Z.max 2 (fold_left Z.max l a)).
  { induction l as [|x l IH]; intros a; simpl; [reflexivity|]. rewrite <- IH. f_equal. lia. }
  rewrite E. set (m := fold_left Z.max (map o_ncut cat) (o_ncut o)).
  destruct (m <? 2) eqn:E2.
  - rewrite Z.max_l by lia. reflexivity.
  - rewrite Z.max_r by lia. reflexivity.
Qed.

Lemma nslots_ge cat o : In o cat -> o_ncut o <= nslots_of cat.
Proof.
  intros H. unfold nslots_of. destruct (fold_left_max (map o_ncut cat) 2) as (_ & G & _).
  apply G. apply in_map; exact H.
Qed.

Lemma nslots_ge2 cat : 2 <= nslots_of cat.
Proof. unfold nslots_of. destruct (fold_left_max (map o_ncut cat) 2) as (H & _). exact H. Qed.

Lemma nslots_attained cat : nslots_of cat = 2 \/ exists o, In o cat /\ o_ncut o = nslots_of cat.
Proof.
  unfold nslots_of. destruct (fold_left_max (map o_ncut cat) 2) as (_ & _ & [E|E]); [left; exact E|right].
  apply in_map_iff in E. destruct E as (o & E & Ho). exists o; auto.
Qed.

(** * Meaning of the acceptance test *)

Lemma acc_accepted c f im o : acc c f im o = true <-> accepted c f im o.
Proof.
  unfold acc, accepted, in_b, contains_point, bounds_of, spec_row, spec_col, spec_buffer, pos_of,
    get_image_bounds, make_wcs_position.
  cbn [zrow zcol wcs_row wcs_col rowmin rowmax colmin colmax].
  rewrite !andb_true_iff, !qleb_le.
  destruct ((f =? 0) && first_image_is_coadd c); cbn [rowmin rowmax colmin colmax].
  - tauto.
  - unfold Qminus. rewrite !Qplus_0_r. tauto.
Qed.
