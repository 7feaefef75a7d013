(** Lemmas on the two C programs. *)
From Coq Require Import Lia String Ascii.
From Verif Require Import Base Img Types Reader CLib CProg SpecFile SpecCLib SpecCProg BaseLemmas.
From Verif Require ImgLemmas CLibLemmas CLibLemmas2.
Open Scope Z_scope.

(** * atoi *)
Lemma digit_of d : 0 <= d <= 9 -> digit (ascii_of_nat (Z.to_nat (48 + d))) = Some d.
Proof.
  intros H. assert (d = 0 \/ d = 1 \/ d = 2 \/ d = 3 \/ d = 4 \/ d = 5 \/ d = 6 \/ d = 7 \/ d = 8 \/ d = 9) as K by lia.
  repeat destruct K as [-> | K]; try reflexivity. subst d. reflexivity.
Qed.

Lemma read_digits_ok ds rest : decimal ds -> no_digit_first rest -> forall a,
  read_digits a (text_of ds rest) = fold_left (fun a d => 10 * a + d) ds a.
Proof.
  intros H N. induction ds as [|d ds IH]; intros a; cbn [text_of fold_left].
  - destruct rest as [|c rest]; [reflexivity|]. cbn. unfold digit. cbn in N.
    destruct ((48 <=? nat_of_ascii c)%nat && (nat_of_ascii c <=? 57)%nat) eqn:E; [|reflexivity].
    apply andb_true_iff in E as [E1 E2]. apply Nat.leb_le in E1, E2. lia.
  - cbn [read_digits]. rewrite digit_of by (apply H; now left). apply IH. intros x Hx. apply H. now right.
Qed.

Lemma skip_digit d s : 0 <= d <= 9 -> skip_spaces (String (ascii_of_nat (Z.to_nat (48 + d))) s) = String (ascii_of_nat (Z.to_nat (48 + d))) s.
Proof.
  intros H. assert (d = 0 \/ d = 1 \/ d = 2 \/ d = 3 \/ d = 4 \/ d = 5 \/ d = 6 \/ d = 7 \/ d = 8 \/ d = 9) as K by lia.
  repeat destruct K as [-> | K]; try reflexivity. subst d. reflexivity.
Qed.

Lemma atoi_digit d s : 0 <= d <= 9 ->
  atoi (String (ascii_of_nat (Z.to_nat (48 + d))) s) = read_digits 0 (String (ascii_of_nat (Z.to_nat (48 + d))) s).
Proof.
  intros H. assert (d = 0 \/ d = 1 \/ d = 2 \/ d = 3 \/ d = 4 \/ d = 5 \/ d = 6 \/ d = 7 \/ d = 8 \/ d = 9) as K by lia.
  repeat destruct K as [-> | K]; try reflexivity. subst d. reflexivity.
Qed.

Lemma atoi_ok ds rest : ds <> [] -> decimal ds -> no_digit_first rest ->
  atoi (text_of ds rest) = value_of ds /\ atoi (String "-" (text_of ds rest)) = - value_of ds.
Proof.
  intros N H R. split.
  - destruct ds as [|d ds]; [congruence|]. cbn [text_of]. rewrite atoi_digit by (apply H; now left).
    apply (read_digits_ok (d :: ds) rest H R 0).
  - unfold atoi. change (skip_spaces (String "-" (text_of ds rest))) with (String "-" (text_of ds rest)).
    cbv iota. unfold value_of. now rewrite read_digits_ok.
Qed.

Lemma atoi_word c s : ~ (48 <= Z.of_nat (nat_of_ascii c) <= 57) -> is_space c = false -> c <> "-"%char -> c <> "+"%char ->
  atoi (String c s) = 0.
Proof.
  intros H S M P. assert (D : digit c = None).
  { unfold digit. destruct (_ && _)%bool eqn:E; [|reflexivity].
    apply andb_true_iff in E as [E1 E2]. apply Nat.leb_le in E1, E2. lia. }
  unfold atoi. cbn [skip_spaces]. rewrite S.
  assert (R : read_digits 0 (String c s) = 0) by (cbn; now rewrite D).
  destruct c as [b0 b1 b2 b3 b4 b5 b6 b7].
  destruct b0, b1, b2, b3, b4, b5, b6, b7; try exact R; exfalso; (apply M; reflexivity) || (apply P; reflexivity).
Qed.

(** * make-meds-input *)
Lemma rounded_ok n : rounded n (fft_round_size n).
Proof.
  destruct (Z_le_gt_dec n 6144) as [H|H].
  - left. destruct (CLibLemmas2.fft_round_ok n H) as (A & B & _ & D). auto.
  - right. split; [lia|]. apply CLibLemmas2.fft_round_over. lia.
Qed.

Lemma box_for_ok r mn mx : box_for r mn mx
  (input_box_size (ymin r) (ymax r) (xmin r) (xmax r) (flux_rad r) (1 - b_world r / a_world r)%Q mn mx).
Proof.
  exists (fft_round_size mn), (fft_round_size mx).
  split; [apply rounded_ok|]. split; [apply rounded_ok|]. split; [apply CLibLemmas2.box_fft|].
  split; [apply CLibLemmas2.box_max|]. split; [apply CLibLemmas2.box_min|].
  split; [apply CLibLemmas2.box_covers|]. apply CLibLemmas2.box_least.
Qed.

Definition irow (k : Z) (r : secat) : iobj :=
  mkIobj k (y_image r) (x_image r) (ymin r) (ymax r) (xmin r) (xmax r) (flux_rad r) (1 - b_world r / a_world r)%Q.

Definition sizes_defined (rows : list secat) : Prop := forall r, In r rows -> ~ (a_world r == 0)%Q.

Lemma load_rows_ok rows : (forall r, In r rows -> ~ (a_world r == 0)%Q) ->
  exists cat, load_rows rows = Ok cat /\ zlen cat = zlen rows /\
    forall k r, zget rows k = Some r -> zget cat k = Some (irow k r).
Proof.
  intros H. unfold load_rows.
  assert (E : mapM (fun k => match zget rows k with Some r => load_irow k r | None => Err IndexError end) (zrange (zlen rows))
    = Ok (map (fun k => match zget rows k with Some r => irow k r | None => irow k (mkSecat 0 0 0 0 0 0 0 0 0) end) (zrange (zlen rows)))).
  { apply mapM_map_ok. intros k Hk. apply In_zrange in Hk. destruct (zget_range_Some rows k Hk) as [r E]. rewrite E.
    unfold load_irow. destruct (Qeq_bool (a_world r) 0) eqn:Z; [|reflexivity].
    apply Qeq_bool_iff in Z. destruct (H r (zget_In _ _ _ E) Z). }
  eexists. split; [exact E|]. split.
  - rewrite zlen_map, zlen_zrange; [reflexivity|apply zlen_nonneg].
  - intros k r Hr. rewrite zget_map, zget_zrange by (apply (zget_Some_range rows k r Hr)). cbn. now rewrite Hr.
Qed.

Lemma id_loop_ok words : forall i cat, 0 <= i -> i + zlen (leading words) <= zlen cat ->
  exists cat', id_loop words i cat = Ok (i + zlen (leading words), cat') /\ zlen cat' = zlen cat /\
    forall k o, zget cat k = Some o -> zget cat' k = Some (match zget (leading words) (k - i) with Some id => set_id o id | None => o end).
Proof.
  induction words as [|[w|] words IH]; intros i cat Hi Hl.
  - exists cat. cbn. rewrite Z.add_0_r. split; [reflexivity|]. split; [reflexivity|].
    intros k o Ho. destruct (zget [] (k - i)) as [x|] eqn:E; [|exact Ho]. apply zget_Some_range in E. cbn in E. lia.
  - cbn [leading] in *. rewrite zlen_cons in *. pose proof (zlen_nonneg (leading words)).
    cbn [id_loop]. rewrite (proj2 (Z.leb_gt (zlen cat) i)) by lia.
    destruct (zget_range_Some cat i ltac:(lia)) as [o Ho].
    assert (Hn : nth_error cat (Z.to_nat i) = Some o).
    { unfold zget in Ho. destruct (Z.ltb_spec i 0); [lia|exact Ho]. }
    unfold modify. rewrite Hn. cbn [bind].
    assert (L : zlen (upd cat (Z.to_nat i) (set_id o w)) = zlen cat) by (unfold zlen; now rewrite upd_length).
    destruct (IH (i + 1) (upd cat (Z.to_nat i) (set_id o w))) as (cat' & E & Ec & Hc); [lia|lia|].
    exists cat'. rewrite E. split; [do 2 f_equal; lia|]. split; [lia|].
    intros k o' Ho'. pose proof (zget_Some_range _ _ _ Ho') as Hk.
    assert (U : zget (upd cat (Z.to_nat i) (set_id o w)) k = Some (if k =? i then set_id o w else o')).
    { unfold zget in *. destruct (Z.ltb_spec k 0); [lia|].
      rewrite nth_error_upd. destruct (Z.eqb_spec k i) as [->|N].
      - rewrite Nat.eqb_refl. rewrite (proj2 (Nat.ltb_lt (Z.to_nat i) (Datatypes.length cat))); [reflexivity|unfold zlen in Hk; lia].
      - destruct (Nat.eqb_spec (Z.to_nat i) (Z.to_nat k)) as [B|B]; [lia|]. exact Ho'. }
    rewrite (Hc k _ U). destruct (Z.eqb_spec k i) as [->|N].
    + replace (zget (leading words) (i - (i + 1))) with (@None Z).
      * replace (i - i) with 0 by lia. unfold zget; cbn. f_equal.
        rewrite Ho in Ho'. injection Ho' as ->. reflexivity.
      * symmetry. apply zget_None. lia.
    + destruct (Z_lt_ge_dec k i).
      * replace (zget (leading words) (k - (i + 1))) with (@None Z) by (symmetry; apply zget_None; lia).
        replace (zget (w :: leading words) (k - i)) with (@None Z) by (symmetry; apply zget_None; lia). reflexivity.
      * replace (zget (w :: leading words) (k - i)) with (zget (leading words) (k - (i + 1))); [reflexivity|].
        unfold zget. destruct (Z.ltb_spec (k - (i + 1)) 0), (Z.ltb_spec (k - i) 0); try lia.
        replace (Z.to_nat (k - i)) with (S (Z.to_nat (k - (i + 1)))) by lia. reflexivity.
  - exists cat. cbn. rewrite Z.add_0_r. split; [reflexivity|]. split; [reflexivity|].
    intros k o Ho. destruct (zget [] (k - i)) as [x|] eqn:E; [|exact Ho]. apply zget_Some_range in E. cbn in E. lia.
Qed.

Lemma id_loop_over words : forall i cat, 0 <= i <= zlen cat -> zlen cat < i + zlen (leading words) ->
  id_loop words i cat = Err CExit.
Proof.
  induction words as [|[w|] words IH]; intros i cat Hi Hl; cbn [leading] in *; try (cbn in Hl; lia).
  rewrite zlen_cons in Hl. cbn [id_loop]. destruct (Z.leb_spec (zlen cat) i) as [G|G]; [reflexivity|].
  destruct (zget_range_Some cat i ltac:(lia)) as [o Ho].
  assert (Hn : nth_error cat (Z.to_nat i) = Some o).
  { unfold zget in Ho. destruct (Z.ltb_spec i 0); [lia|exact Ho]. }
  unfold modify. rewrite Hn. cbn [bind].
  assert (L : zlen (upd cat (Z.to_nat i) (set_id o w)) = zlen cat) by (unfold zlen; now rewrite upd_length).
  apply IH; lia.
Qed.

Lemma input_line_irow mn mx k r : input_line (fft_round_size mn) (fft_round_size mx) (irow k r) =
  (k, y_image r, x_image r,
   input_box_size (ymin r) (ymax r) (xmin r) (xmax r) (flux_rad r) (1 - b_world r / a_world r)%Q mn mx).
Proof. reflexivity. Qed.

Lemma set_id_irow k r id : set_id (irow k r) id = irow id r.
Proof. reflexivity. Qed.

Section Input.
  Variables (fs : files) (infile mn mx : string) (rows : list secat).
  Hypothesis Hcat : fs infile = Some (CCat rows).
  Hypothesis Hdef : forall r, In r rows -> ~ (a_world r == 0)%Q.

  Lemma input_plain : exists r, make_meds_input [infile; mn; mx] fs = Ok r /\ r_status r = 0 /\ unchanged r fs /\
    lines_of (fun k n => n = k) rows (atoi mn) (atoi mx) (r_out r).
  Proof.
    destruct (load_rows_ok rows Hdef) as (cat & E & L & G).
    unfold make_meds_input, make_input. rewrite Hcat, E. cbn [bind]. eexists. split; [reflexivity|].
    split; [reflexivity|]. split; [intros n; reflexivity|]. cbn [r_out]. split; [rewrite zlen_map; exact L|].
    intros k r Hr. rewrite zget_map, (G k r Hr). cbn [option_map]. rewrite input_line_irow.
    do 2 eexists. split; [reflexivity|]. split; [reflexivity|]. apply box_for_ok.
  Qed.

  Lemma input_ids idf more words : fs idf = Some (CWords words) -> zlen (leading words) = zlen rows ->
    exists r, make_meds_input (infile :: mn :: mx :: idf :: more) fs = Ok r /\ r_status r = 0 /\ unchanged r fs /\
      lines_of (fun k n => zget (leading words) k = Some n) rows (atoi mn) (atoi mx) (r_out r).
  Proof.
    intros Hid Hw. destruct (load_rows_ok rows Hdef) as (cat & E & L & G).
    destruct (id_loop_ok words 0 cat ltac:(lia) ltac:(lia)) as (cat' & E' & L' & G').
    unfold make_meds_input, make_input, cat_add_id_from_file. rewrite Hcat, Hid, E. cbn [bind]. rewrite E'. cbn [bind].
    rewrite (proj2 (Z.eqb_eq (0 + zlen (leading words)) (zlen cat'))) by lia. cbn [negb bind].
    eexists. split; [reflexivity|]. split; [reflexivity|]. split; [intros n; reflexivity|].
    cbn [r_out]. split; [rewrite zlen_map; lia|].
    intros k r Hr. pose proof (zget_Some_range _ _ _ Hr) as Hk.
    destruct (zget_range_Some (leading words) k ltac:(lia)) as [n Hn].
    rewrite zget_map, (G' k _ (G k r Hr)). replace (k - 0) with k by lia. rewrite Hn. cbn [option_map].
    rewrite set_id_irow, input_line_irow.
    do 2 eexists. split; [reflexivity|]. split; [reflexivity|]. apply box_for_ok.
  Qed.

  Lemma input_rejected idf more : fs idf = None \/ (exists words, fs idf = Some (CWords words) /\ zlen (leading words) <> zlen rows) ->
    exists r, make_meds_input (infile :: mn :: mx :: idf :: more) fs = Ok r /\ r_status r = 1 /\ unchanged r fs /\ r_out r = [].
  Proof.
    intros Hid. destruct (load_rows_ok rows Hdef) as (cat & E & L & G).
    unfold make_meds_input, make_input, cat_add_id_from_file. rewrite Hcat, E. cbn [bind].
    destruct Hid as [-> | (words & -> & Hw)].
    - cbn [bind]. eexists. repeat split; reflexivity.
    - destruct (Z_lt_ge_dec (zlen cat) (zlen (leading words))) as [H|H].
      + rewrite id_loop_over by (pose proof (zlen_nonneg cat); lia). cbn [bind]. eexists. repeat split; reflexivity.
      + destruct (id_loop_ok words 0 cat ltac:(lia) ltac:(lia)) as (cat' & E' & L' & G').
        rewrite E'. cbn [bind]. rewrite (proj2 (Z.eqb_neq (0 + zlen (leading words)) (zlen cat'))) by lia.
        cbn [negb bind]. eexists. repeat split; reflexivity.
  Qed.
End Input.

(** * meds-get-cutout *)
Section Get.
  Variables (creatable : string -> bool) (fs : files) (name out : string) (cf : cfile) (m : clib).
  Hypothesis Hfile : fs name = Some (CMeds cf).
  Hypothesis Hwf : file_wf (cf_file cf).
  Hypothesis Hopen : meds_open cf = Ok (Some m).

  Lemma write_ok pix n b : 0 < n -> 0 < b -> zlen pix = n * b * b -> creatable out = true ->
    c_write_fits creatable (cutout_from_ptr pix n b b) out fs = Ok (write_file fs out (CImage (mkImg (n * b) b pix))).
  Proof.
    intros Hn Hb L C. unfold c_write_fits. rewrite C. cbn [negb].
    assert (Hnb : 0 < n * b) by nia.
    assert (E : mem (ci_rows (cutout_from_ptr pix n b b)) 0 = Ok 0).
    { unfold mem. cbn [ci_rows cutout_from_ptr]. rewrite CLibLemmas.row_pointers_get by lia. reflexivity. }
    rewrite E. cbn [bind ci_pix ci_mosaic_size ci_mosaic_nrow ci_mosaic_ncol cutout_from_ptr].
    rewrite L. rewrite (proj2 (Z.ltb_ge (n * b * b) (0 + n * b * b))) by lia. cbn [orb].
    change (0 <? 0) with false. cbn [orb]. change (Z.to_nat 0) with O. cbn [skipn].
    replace (Z.to_nat (n * b * b)) with (Datatypes.length pix) by (unfold zlen in L; lia). rewrite firstn_all.
    unfold reshape. rewrite (proj2 (Z.leb_le 0 (n * b))), (proj2 (Z.leb_le 0 b)), (proj2 (Z.eqb_eq (zlen pix) (n * b * b))) by lia.
    reflexivity.
  Qed.

  Lemma written_only (r : run unit) im : r_files r = write_file fs out (CImage im) -> only_written r fs out im.
  Proof.
    intros E. unfold only_written. rewrite E. unfold write_file. split; [now rewrite String.eqb_refl|].
    intros n N. destruct (String.eqb_spec n out); [congruence|reflexivity].
  Qed.

  Lemma mosaic_shape i t im : get_mosaic (cf_file cf) i t = Ok im ->
    forall o, zget (m_cat (cf_file cf)) i = Some o -> im = mkImg (o_ncut o * o_box o) (o_box o) (dat im) /\ zlen (dat im) = o_ncut o * o_box o * o_box o.
  Proof.
    intros H o Ho. unfold get_mosaic in H. apply bind_ok in H as (o' & Hc & H).
    assert (o' = o) as ->.
    { pose proof (zget_Some_range _ _ _ Ho). unfold check_indices in Hc. destruct (_ <=? i) eqn:E in Hc; [discriminate|].
      rewrite py_index_nonneg in Hc by lia. rewrite Ho in Hc. cbn [bind] in Hc.
      destruct (o_ncut o =? 0); [discriminate|]. now injection Hc. }
    apply bind_ok in H as (s & _ & H). apply bind_ok in H as (mm & _ & H). apply bind_ok in H as (l & _ & H).
    apply ImgLemmas.reshape_ok in H as (-> & (_ & _ & H)). cbn in *. auto.
  Qed.

  Lemma cutout_shape i k t im : get_cutout (cf_file cf) i k t = Ok im -> forall o s, cutout_at (cf_file cf) i k o s ->
    im = mkImg (o_box o) (o_box o) (dat im) /\ zlen (dat im) = o_box o * o_box o.
  Proof.
    intros H o s0 (Ho & Hk & _). unfold get_cutout in H. apply bind_ok in H as (o' & Hc & H).
    assert (o' = o) as ->.
    { pose proof (zget_Some_range _ _ _ Ho). unfold check_indices in Hc. destruct (_ <=? i) eqn:E in Hc; [discriminate|].
      rewrite py_index_nonneg in Hc by lia. rewrite Ho in Hc. cbn [bind] in Hc.
      destruct (o_ncut o =? 0); [discriminate|]. destruct (_ <=? k); [discriminate|]. now injection Hc. }
    apply bind_ok in H as (s & _ & H). apply bind_ok in H as (mm & _ & H). apply bind_ok in H as (l & _ & H).
    apply ImgLemmas.reshape_ok in H as (-> & (_ & _ & H)). cbn in *. auto.
  Qed.

  Lemma get_mosaic_written i mos o : ext_find (m_ext (cf_file cf)) TImage = Some mos -> creatable out = true ->
    zget (m_cat (cf_file cf)) (atoi i) = Some o -> 0 < o_ncut o ->
    exists r im, meds_get_cutout creatable [name; out; i] fs = Ok r /\ r_status r = 0 /\
      get_mosaic (cf_file cf) (atoi i) TImage = Ok im /\ only_written r fs out im.
  Proof.
    intros He C Ho Hn. destruct (CLibLemmas.mosaic_same cf m Hwf Hopen TImage mos (atoi i) o He Ho Hn) as (im & ci & E & Ep & Ec & _).
    assert (Hb : 0 < o_box o).
    { destruct Hwf as (W & _). rewrite Forall_forall in W. apply (W o (zget_In _ _ _ Ho)). }
    destruct (mosaic_shape _ _ _ E o Ho) as (Eim & L).
    unfold meds_get_cutout. rewrite Hfile, Hopen. cbn [bind].
    unfold c_get_mosaic. rewrite Ep. cbn [bind]. rewrite write_ok by assumption. cbn [bind].
    do 2 eexists. split; [reflexivity|]. split; [reflexivity|]. split; [exact E|]. apply written_only.
    cbn [r_files]. now rewrite <- Eim.
  Qed.

  Lemma get_cutout_written i k more mos o s : ext_find (m_ext (cf_file cf)) TImage = Some mos -> creatable out = true ->
    cutout_at (cf_file cf) (atoi i) (atoi k) o s ->
    exists r im, meds_get_cutout creatable (name :: out :: i :: k :: more) fs = Ok r /\ r_status r = 0 /\
      get_cutout (cf_file cf) (atoi i) (atoi k) TImage = Ok im /\ only_written r fs out im.
  Proof.
    intros He C Ho. destruct (CLibLemmas.cutout_same cf m Hwf Hopen TImage mos (atoi i) (atoi k) o s He Ho) as (im & ci & E & _ & _ & Ep & Ec & _).
    assert (Hb : 0 < o_box o).
    { destruct Hwf as (W & _). rewrite Forall_forall in W. destruct Ho as (Ho & _). apply (W o (zget_In _ _ _ Ho)). }
    destruct (cutout_shape _ _ _ _ E o s Ho) as (Eim & L).
    unfold meds_get_cutout. rewrite Hfile, Hopen. cbn [bind].
    unfold c_get_cutout. rewrite Ep. cbn [bind]. rewrite write_ok by (assumption || lia). cbn [bind].
    do 2 eexists. split; [reflexivity|]. split; [reflexivity|]. split; [exact E|]. apply written_only.
    cbn [r_files]. rewrite Z.mul_1_l. now rewrite <- Eim.
  Qed.

  Lemma get_nothing i rest : no_cutout (cf_file cf) (atoi i) (match rest with k :: _ => atoi k | [] => 0 end) ->
    exists r, meds_get_cutout creatable (name :: out :: i :: rest) fs = Ok r /\ r_status r = 0 /\ unchanged r fs.
  Proof.
    intros H. unfold meds_get_cutout. rewrite Hfile, Hopen. cbn [bind]. destruct rest as [|k rest].
    - destruct (CLibLemmas.mosaic_none cf m Hwf Hopen TImage (atoi i) (or_intror H)) as (_ & ->). cbn [bind].
      eexists. repeat split; reflexivity.
    - destruct (CLibLemmas.cutout_none cf m Hwf Hopen TImage (atoi i) (atoi k) (or_intror H)) as (_ & ->). cbn [bind].
      eexists. repeat split; reflexivity.
  Qed.
End Get.

(** Whatever happens, only the output file can change. *)
Lemma get_others creatable args fs r name out rest : args = name :: out :: rest -> meds_get_cutout creatable args fs = Ok r ->
  forall n, n <> out -> r_files r n = fs n.
Proof.
  intros -> H n N. unfold meds_get_cutout in H. destruct rest as [|i rest]; [injection H as <-; reflexivity|].
  apply bind_ok in H as (mm & _ & H). destruct mm as [mm|]; [|injection H as <-; reflexivity].
  apply bind_ok in H as (im & _ & H). destruct im as [im|]; [|injection H as <-; reflexivity].
  apply bind_ok in H as (fs' & W & H). injection H as <-. cbn [r_files].
  unfold c_write_fits in W. destruct (negb _); [injection W as <-; reflexivity|].
  apply bind_ok in W as (p & _ & W). destruct (_ || _); [discriminate|].
  apply bind_ok in W as (o & _ & W). injection W as <-. unfold write_file.
  destruct (String.eqb_spec n out); [congruence|reflexivity].
Qed.
