(** The grid and the combined mosaic of meds-view. *)
From Coq Require Import Lia ZifyBool ZifyNat.
From Verif Require Import Base BaseLemmas Img ImgLemmas Types Reader SpecFile Composite Uberseg View SpecView.
From Verif Require CompareLemmas2.
Ltac Zify.zify_post_hook ::= Z.div_mod_to_equations.
Open Scope Z_scope.

Lemma grid_facts n : 1 <= n -> exists rows cols, set_grid n = (rows, cols) /\ 1 <= rows /\ 1 <= cols /\
  n <= rows * cols /\ (rows - 1) * cols < n /\ rows <= cols /\ (n <> 8 -> cols <= rows + 1) /\ cols <= rows + 2.
Proof.
  intros H. unfold set_grid. destruct (n =? 8) eqn:E8; [exists 2, 4; repeat split; lia|].
  pose proof (Z.sqrt_spec n ltac:(lia)) as S. cbv zeta in S. set (q := Z.sqrt n) in *.
  assert (1 <= q) by (pose proof (Z.sqrt_le_mono 1 n H) as M; change (Z.sqrt 1) with 1 in M; exact M).
  unfold Z.succ in S.
  destruct (n =? q * q) eqn:E1; [exists q, q; repeat split; nia|].
  destruct (n <=? q * (q + 1)) eqn:E2; [exists q, (q + 1)|exists (q + 1), (q + 1)]; repeat split; nia.
Qed.

Lemma rowcol_eq rows cols i : 1 <= cols -> 0 <= i < rows * cols ->
  get_rowcol (rows, cols) i = Ok (i / cols, i mod cols) /\ 0 <= i / cols < rows /\ 0 <= i mod cols < cols.
Proof.
  intros C H. unfold get_rowcol. replace (rows * cols - 1 <? i) with false by lia. replace (cols =? 0) with false by lia.
  split; [reflexivity|]. split.
  - split; [apply Z.div_pos; lia|]. apply Z.div_lt_upper_bound; lia.
  - apply Z.mod_pos_bound. lia.
Qed.

Lemma grid_cells n : 1 <= n -> exists rows cols, set_grid n = (rows, cols) /\
  n <= rows * cols /\ (rows - 1) * cols < n /\ rows <= cols <= rows + 2 /\
  (forall i, 0 <= i < n -> exists r c, get_rowcol (rows, cols) i = Ok (r, c) /\ 0 <= r < rows /\ 0 <= c < cols) /\
  (forall i j p, 0 <= i < n -> 0 <= j < n -> get_rowcol (rows, cols) i = Ok p -> get_rowcol (rows, cols) j = Ok p -> i = j) /\
  (forall i r c, 0 <= i -> i + 1 < n -> get_rowcol (rows, cols) i = Ok (r, c) ->
     get_rowcol (rows, cols) (i + 1) = Ok (if c + 1 =? cols then (r + 1, 0) else (r, c + 1))).
Proof.
  intros H. destruct (grid_facts n H) as (rows & cols & G & R & C & L & M & Q & _ & Q2). exists rows, cols.
  split; [exact G|]. split; [exact L|]. split; [exact M|]. split; [lia|].
  split; [|split].
  - intros i Hi. destruct (rowcol_eq rows cols i C ltac:(lia)) as (E & A & B). exists (i / cols), (i mod cols). auto.
  - intros i j p Hi Hj. destruct (rowcol_eq rows cols i C ltac:(lia)) as (-> & _). destruct (rowcol_eq rows cols j C ltac:(lia)) as (-> & _).
    intros E1 E2. injection E1 as <-. injection E2 as E3 E4.
    rewrite (Z.div_mod i cols), (Z.div_mod j cols) by lia. rewrite E3, E4. reflexivity.
  - intros i r c Hi Hj. destruct (rowcol_eq rows cols i C ltac:(lia)) as (-> & _). destruct (rowcol_eq rows cols (i + 1) C ltac:(lia)) as (-> & _).
    intros E. injection E as <- <-. destruct (i mod cols + 1 =? cols) eqn:E; f_equal.
    + pose proof (Z.div_mod i cols ltac:(lia)).
      assert ((i + 1) = cols * (i / cols + 1) + 0) by lia.
      rewrite <- (Z.div_unique_pos (i + 1) cols (i / cols + 1) 0) by lia.
      rewrite <- (Z.mod_unique_pos (i + 1) cols (i / cols + 1) 0) by lia. reflexivity.
    + pose proof (Z.div_mod i cols ltac:(lia)). pose proof (Z.mod_pos_bound i cols ltac:(lia)).
      rewrite <- (Z.div_unique_pos (i + 1) cols (i / cols) (i mod cols + 1)) by lia.
      rewrite <- (Z.mod_unique_pos (i + 1) cols (i / cols) (i mod cols + 1)) by lia. reflexivity.
Qed.

Lemma tab2M_spec {A} h w (f : Z -> Z -> res A) (g : Z -> Z -> option A) : 0 <= h -> 0 <= w ->
  (forall r c, 0 <= r < h -> 0 <= c < w -> exists a, f r c = Ok a /\ g r c = Some a) ->
  exists im, tab2M h w f = Ok im /\ img_ok im /\ nr im = h /\ nc im = w /\
    forall r c, 0 <= r < h -> 0 <= c < w -> px im r c = g r c.
Proof.
  intros Hh Hw H. destruct (tab2M_exists h w f Hh Hw) as (im & E).
  { intros r c Hr Hc. destruct (H r c Hr Hc) as (a & Ha & _). exists a; exact Ha. }
  exists im. split; [exact E|]. apply tab2M_ok in E; [|assumption|assumption]. destruct E as (E1 & E2 & E3 & E4).
  split; [exact E1|]. split; [exact E2|]. split; [exact E3|]. intros r c Hr Hc.
  destruct (E4 r c Hr Hc) as (a & Ha & ->). destruct (H r c Hr Hc) as (b & Hb & ->). congruence.
Qed.

Lemma px_res_some {A} (im : img A) r c a : px im r c = Some a -> px_res im r c = Ok a.
Proof. unfold px_res. intros ->. reflexivity. Qed.

(** Position of a pixel in the cells of a grid. *)
Lemma cell_div h a r : 0 <= r < h -> (a * h + r) / h = a /\ (a * h + r) mod h = r.
Proof.
  intros H. split; [symmetry; apply (Z.div_unique_pos _ h a r); lia|symmetry; apply (Z.mod_unique_pos _ h a r); lia].
Qed.

Lemma paste_cell {A} (dst src : img A) rows cols h w a b : 0 < h -> 0 < w -> img_ok dst -> img_ok src ->
  nr dst = rows * h -> nc dst = cols * w -> nr src = h -> nc src = w -> 0 <= a < rows -> 0 <= b < cols ->
  exists m, paste dst (a * h) ((a + 1) * h) (b * w) ((b + 1) * w) src = Ok m /\ img_ok m /\ nr m = rows * h /\ nc m = cols * w /\
    forall R C, 0 <= R < rows * h -> 0 <= C < cols * w ->
      px m R C = if (R / h =? a) && (C / w =? b) then px src (R mod h) (C mod w) else px dst R C.
Proof.
  intros Hh Hw Hd Hs D1 D2 S1 S2 Ha Hb. unfold paste. rewrite D1, D2, S1, S2. unfold np_bound.
  assert (a * h <= (a + 1) * h <= rows * h) by nia. assert (b * w <= (b + 1) * w <= cols * w) by nia.
  assert (0 <= a * h) by nia. assert (0 <= b * w) by nia.
  replace (a * h <? 0) with false by lia. replace ((a + 1) * h <? 0) with false by lia.
  replace (b * w <? 0) with false by lia. replace ((b + 1) * w <? 0) with false by lia.
  rewrite !Z.min_l by lia. replace (Z.max 0 ((a + 1) * h - a * h)) with h by lia. replace (Z.max 0 ((b + 1) * w - b * w)) with w by lia.
  rewrite !Z.eqb_refl. cbn [andb].
  apply tab2M_spec; [nia|nia|]. intros R C HR HC.
  pose proof (Z.div_mod R h ltac:(lia)) as DR. pose proof (Z.mod_pos_bound R h Hh) as MR.
  pose proof (Z.div_mod C w ltac:(lia)) as DC. pose proof (Z.mod_pos_bound C w Hw) as MC.
  set (qr := R / h) in *. set (mr := R mod h) in *. set (qc := C / w) in *. set (mc := C mod w) in *.
  clearbody qr mr qc mc.
  destruct ((a * h <=? R) && (R <? (a + 1) * h) && (b * w <=? C) && (C <? (b + 1) * w)) eqn:E.
  - assert (qr = a) by nia. assert (qc = b) by nia. subst qr qc. rewrite !Z.eqb_refl. cbn [andb].
    destruct (px_in src mr mc) as (x & Hx); [exact Hs|lia|lia|]. exists x. split; [|exact Hx].
    apply px_res_some. replace (R - a * h) with mr by lia. replace (C - b * w) with mc by lia. exact Hx.
  - replace ((qr =? a) && (qc =? b)) with false by nia.
    destruct (px_in dst R C) as (x & Hx); [exact Hd|lia|lia|]. exists x. split; [apply px_res_some; exact Hx|exact Hx].
Qed.

Lemma combined_loop (l : list (img fv)) rows cols h w : 0 < h -> 0 < w -> 1 <= rows -> 1 <= cols ->
  Forall (fun im => img_ok im /\ nr im = h /\ nc im = w) l -> zlen l <= rows * cols ->
  forall m0, img_ok m0 -> nr m0 = rows * h -> nc m0 = cols * w ->
  forall j, 0 <= j <= zlen l ->
  exists m, foldM (fun imtot i =>
      let* im := py_index l i in
      let* rc := get_rowcol (rows, cols) i in
      paste imtot (fst rc * h) ((fst rc + 1) * h) (snd rc * w) ((snd rc + 1) * w) im) (zrange j) m0 = Ok m /\
    img_ok m /\ nr m = rows * h /\ nc m = cols * w /\
    forall R C, 0 <= R < rows * h -> 0 <= C < cols * w ->
      px m R C = match zget l (R / h * cols + C / w) with
                 | Some im => if R / h * cols + C / w <? j then px im (R mod h) (C mod w) else px m0 R C
                 | None => px m0 R C
                 end.
Proof.
  intros Hh Hw HR HC HF HN m0 O0 N0 C0 j Hj. destruct Hj as [Hj Hj2]. revert Hj2. pattern j. apply natlike_ind; [|clear j Hj|exact Hj].
  - intros _. exists m0. split; [reflexivity|]. split; [exact O0|]. split; [exact N0|]. split; [exact C0|].
    intros R C H1 H2. assert (0 <= R / h) by (apply Z.div_pos; lia). assert (0 <= C / w) by (apply Z.div_pos; lia).
    destruct (zget l _); [|reflexivity]. replace (R / h * cols + C / w <? 0) with false by nia. reflexivity.
  - intros j Hj IH Hj2. unfold Z.succ in *. destruct IH as (m & E & Om & Nm & Cm & P); [lia|].
    rewrite CompareLemmas2.zrange_S, foldM_app, E by lia. cbn [foldM bind].
    destruct (zget_range_Some l j) as (im & Him); [lia|]. 
    assert (PI : py_index l j = Ok im) by (unfold py_index; replace (j <? 0) with false by lia; rewrite Him; reflexivity).
    rewrite PI. cbn [bind]. destruct (rowcol_eq rows cols j HC ltac:(lia)) as (-> & A & B). cbn [bind fst snd].
    rewrite Forall_forall in HF. destruct (HF im (zget_In _ _ _ Him)) as (I1 & I2 & I3).
    destruct (paste_cell m im rows cols h w (j / cols) (j mod cols) Hh Hw Om I1 Nm Cm I2 I3 A B) as (m' & -> & Om' & Nm' & Cm' & P').
    cbn [bind]. exists m'. split; [reflexivity|]. split; [exact Om'|]. split; [exact Nm'|]. split; [exact Cm'|].
    intros R C H1 H2. rewrite P', P by assumption. clear P P'.
    assert (X1 : 0 <= R / h < rows) by (split; [apply Z.div_pos; lia|apply Z.div_lt_upper_bound; nia]).
    assert (X2 : 0 <= C / w < cols) by (split; [apply Z.div_pos; lia|apply Z.div_lt_upper_bound; nia]).
    set (qr := R / h) in *. set (qc := C / w) in *. clearbody qr qc.
    destruct ((qr =? j / cols) && (qc =? j mod cols)) eqn:E2.
    + assert (qr * cols + qc = j) as ->.
      { rewrite (Z.div_mod j cols) by lia. nia. }
      rewrite Him. replace (j <? j + 1) with true by lia. reflexivity.
    + assert (qr * cols + qc <> j).
      { intros <-. destruct (cell_div cols qr qc X2) as (Y1 & Y2). rewrite Y1, Y2, !Z.eqb_refl in E2. discriminate. }
      destruct (zget l (qr * cols + qc)); [|reflexivity].
      replace (qr * cols + qc <? j + 1) with (qr * cols + qc <? j) by lia. reflexivity.
Qed.

(** Every image is in its cell, the last row of the cell first; the rest is 0. *)
Lemma combined_cells (l : list (img fv)) h w : l <> [] -> all_shape h w l ->
  exists rows cols tot, set_grid (zlen l) = (rows, cols) /\ make_combined_mosaic l = Ok tot /\ img_ok tot /\
    nr tot = rows * h /\ nc tot = cols * w /\
    (forall k im, zget l k = Some im -> exists a b, get_rowcol (rows, cols) k = Ok (a, b) /\
       forall r c, 0 <= r < h -> 0 <= c < w -> px tot (rows * h - 1 - (a * h + r)) (b * w + c) = px im r c) /\
    (forall a b r c, 0 <= a < rows -> 0 <= b < cols -> (forall k, 0 <= k < zlen l -> get_rowcol (rows, cols) k <> Ok (a, b)) ->
       0 <= r < h -> 0 <= c < w -> px tot (rows * h - 1 - (a * h + r)) (b * w + c) = Some (Fin 0)).
Proof.
  intros HL (Hh & Hw & HF). assert (HN : 1 <= zlen l) by (destruct l; [congruence|]; rewrite zlen_cons; pose proof (zlen_nonneg l); lia).
  destruct (grid_facts (zlen l) HN) as (rows & cols & G & R1 & C1 & L & _). exists rows, cols.
  unfold make_combined_mosaic. rewrite G. cbn [fst snd].
  destruct (zget_range_Some l 0) as (im0 & H0); [lia|].
  assert (PI : py_index l 0 = Ok im0) by (unfold py_index; change (0 <? 0) with false; cbv iota; rewrite H0; reflexivity).
  rewrite PI. cbn [bind]. pose proof HF as HF2. rewrite Forall_forall in HF2. destruct (HF2 im0 (zget_In _ _ _ H0)) as (_ & E1 & E2).
  rewrite E1, E2. unfold full. replace ((0 <=? rows * h) && (0 <=? cols * w)) with true by nia. cbn [bind].
  destruct (combined_loop l rows cols h w Hh Hw R1 C1 HF L (tab2 (rows * h) (cols * w) (fun _ _ => Fin 0)))
    with (j := zlen l) as (m & -> & Om & Nm & Cm & P); [apply tab2_ok; nia|reflexivity|reflexivity|lia|].
  cbn [bind]. unfold flipud. rewrite Nm, Cm.
  destruct (tab2M_spec (rows * h) (cols * w) (fun r c => px_res m (rows * h - 1 - r) c) (fun r c => px m (rows * h - 1 - r) c))
    as (tot & -> & Ot & Nt & Ct & PT); [nia|nia| |].
  { intros r c Hr Hc. destruct (px_in m (rows * h - 1 - r) c) as (x & Hx); [exact Om|lia|lia|]. exists x. split; [apply px_res_some|]; exact Hx. }
  exists tot. split; [reflexivity|]. split; [reflexivity|]. split; [exact Ot|]. split; [exact Nt|]. split; [exact Ct|].
  assert (PX : forall a b r c, 0 <= a < rows -> 0 <= b < cols -> 0 <= r < h -> 0 <= c < w ->
    px tot (rows * h - 1 - (a * h + r)) (b * w + c) = match zget l (a * cols + b) with Some im => px im r c | None => Some (Fin 0) end).
  { intros a b r c Ha Hb Hr Hc. rewrite PT by nia. replace (rows * h - 1 - (rows * h - 1 - (a * h + r))) with (a * h + r) by lia.
    rewrite P by nia. destruct (cell_div h a r Hr) as (-> & ->). destruct (cell_div w b c Hc) as (-> & ->).
    rewrite px_tab2. replace (_ && _) with true by nia.
    destruct (zget l (a * cols + b)) eqn:Z; [|reflexivity]. apply zget_Some_range in Z. replace (a * cols + b <? zlen l) with true by lia. reflexivity. }
  split.
  - intros k im Hk. pose proof (zget_Some_range _ _ _ Hk). destruct (rowcol_eq rows cols k C1 ltac:(lia)) as (E & A & B).
    exists (k / cols), (k mod cols). split; [exact E|]. intros r c Hr Hc. rewrite PX by assumption.
    replace (k / cols * cols + k mod cols) with k by (rewrite (Z.div_mod k cols) at 1; lia). rewrite Hk. reflexivity.
  - intros a b r c Ha Hb Hno Hr Hc. rewrite PX by assumption. destruct (zget l (a * cols + b)) eqn:Z; [|reflexivity].
    exfalso. apply zget_Some_range in Z. apply (Hno _ Z). destruct (rowcol_eq rows cols (a * cols + b) C1 ltac:(lia)) as (-> & _).
    destruct (cell_div cols a b Hb) as (-> & ->). reflexivity.
Qed.
