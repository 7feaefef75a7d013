(** PSF layout, the two PSF writers, chunking. *)
From Coq Require Import Lia ZifyBool ZifyNat.
From Verif Require Import Base BaseLemmas Img ImgLemmas Types MakerLayout MakerWrite MakerFile SpecTiles
  StartLemmas WriteLemmas.
Ltac Zify.zify_post_hook ::= Z.div_mod_to_equations.

Definition ncut_ok (o : obj) : Prop := 0 <= o_ncut o <= zlen (o_slots o).

(** * Chunking *)

Definition chunk {A} (l : list A) (n j : Z) : list A :=
  firstn (Z.to_nat (Z.min (j * n + n) (zlen l) - j * n)) (skipn (Z.to_nat (j * n)) l).

Lemma zrange_succ n : 0 <= n -> zrange (n + 1) = zrange n ++ [n].
Proof.
  intros H. unfold zrange. rewrite Z2Nat.inj_add by lia. rewrite seq_app, map_app. simpl.
  rewrite Z2Nat.id by lia. reflexivity.
Qed.

Lemma firstn_add {A} (l : list A) a b : firstn (a + b) l = firstn a l ++ firstn b (skipn a l).
Proof. revert l; induction a as [|a IH]; intros [|x l]; simpl; try rewrite firstn_nil; auto. f_equal. apply IH. Qed.

Lemma chunks_prefix {A} (l : list A) n m : 0 <= n ->
  flat_map (chunk l n) (zrange (Z.of_nat m)) = firstn (m * Z.to_nat n) l.
Proof.
  intros Hn. induction m as [|m IH]; [reflexivity|].
  rewrite Nat2Z.inj_succ, <- Z.add_1_r, zrange_succ by lia. rewrite flat_map_app, IH. cbn [flat_map].
  rewrite app_nil_r.
  replace (S m * Z.to_nat n)%nat with (m * Z.to_nat n + Z.to_nat n)%nat by lia.
  rewrite firstn_add. f_equal. unfold chunk.
  replace (Z.to_nat (Z.of_nat m * n)) with (m * Z.to_nat n)%nat by nia.
  destruct (Z_le_gt_dec (Z.of_nat m * n + n) (zlen l)) as [H|H].
  - rewrite Z.min_l by lia. f_equal. lia.
  - rewrite Z.min_r by lia. unfold zlen in *.
    assert (HL : length (skipn (m * Z.to_nat n) l) = (length l - m * Z.to_nat n)%nat) by apply skipn_length.
    rewrite !firstn_all2; [reflexivity| |]; rewrite HL; nia.
Qed.

Lemma chunks_all {A} (l : list A) n m : 0 <= n -> 0 <= m -> zlen l <= m * n ->
  flat_map (chunk l n) (zrange m) = l.
Proof.
  intros Hn Hm H. rewrite <- (Z2Nat.id m) by lia. rewrite chunks_prefix by exact Hn.
  apply firstn_all2. unfold zlen in H. nia.
Qed.

(** * Sky to image *)

Lemma sky_jobs_chunks {A} (ra : list A) n : 0 <= n ->
  forall m i, concat (sky_jobs ra n (map Z.of_nat (seq i m)))
              = flat_map (chunk ra n) (map Z.of_nat (seq i m)).
Proof.
  intros Hn. induction m as [|m IH]; intros i; [reflexivity|]. cbn [seq map sky_jobs flat_map].
  dif E.
  - assert (G : forall k, (i <= k)%nat -> chunk ra n (Z.of_nat k) = []).
    { intros k Hk. unfold chunk. replace (Z.to_nat _) with 0%nat; [reflexivity|]. nia. }
    rewrite (G i) by lia. cbn [app concat].
    assert (G2 : forall m j, (i <= j)%nat -> flat_map (chunk ra n) (map Z.of_nat (seq j m)) = []).
    { clear IH E. induction m0 as [|m0 IH]; intros j Hj; [reflexivity|].
      cbn [seq map flat_map]. rewrite G by exact Hj. apply IH. lia. }
    rewrite G2 by lia. reflexivity.
  - cbn [concat]. rewrite IH. reflexivity.
Qed.

Lemma sky_jobs_nonempty {A} (ra : list A) n : 0 < n -> forall is, (forall i, In i is -> 0 <= i) ->
  Forall (fun j => j <> []) (sky_jobs ra n is).
Proof.
  intros Hn. induction is as [|i is IH]; intros Hi; [constructor|]. cbn [sky_jobs]. dif E; [constructor|].
  constructor; [|apply IH; intros; apply Hi; right; assumption].
  intros H. apply (f_equal (@length A)) in H. rewrite firstn_length, skipn_length in H.
  assert (0 <= i) by (apply Hi; left; reflexivity). unfold zlen in *. simpl in H. nia.
Qed.

Lemma sky_jobs_length {A} (ra : list A) n is : (length (sky_jobs ra n is) <= length is)%nat.
Proof. induction is as [|i is IH]; simpl; [lia|]. dif E; simpl; lia. Qed.

Lemma sky2image_jobs {A} (ra : list A) n_jobs n : 1 <= n_jobs -> 0 < n -> zlen ra <= n * n_jobs ->
  concat (sky_jobs ra n (zrange n_jobs)) = ra /\
  Forall (fun j => j <> []) (sky_jobs ra n (zrange n_jobs)) /\
  zlen (sky_jobs ra n (zrange n_jobs)) <= n_jobs.
Proof.
  intros H1 H2 H3. split; [|split].
  - unfold zrange. rewrite sky_jobs_chunks by lia. fold (zrange n_jobs). apply chunks_all; lia.
  - apply sky_jobs_nonempty; [exact H2|]. intros i Hi. apply In_zrange in Hi. lia.
  - unfold zlen. pose proof (sky_jobs_length ra n (zrange n_jobs)). rewrite zrange_length in *. lia.
Qed.

Lemma sky2image_serial {A B} (g : A -> B) uj ncpu mw ra : 1 <= ncpu ->
  sky2image (map g) uj ncpu mw ra = Ok (map g ra).
Proof.
  intros Hc. unfold sky2image. dif E; [|reflexivity].
  set (nj := if 0 <? mw then Z.min mw ncpu else ncpu).
  assert (Hnj : 1 <= nj) by (unfold nj; dif E1; lia).
  dif E2; [lia|].
  set (npj := if nj * (zlen ra / nj) <? zlen ra then zlen ra / nj + 1 else zlen ra / nj).
  assert (Hnp : 0 < npj /\ zlen ra <= npj * nj).
  { pose proof (Z.div_mod (zlen ra) nj ltac:(lia)). pose proof (Z.mod_pos_bound (zlen ra) nj ltac:(lia)).
    assert (0 <= zlen ra / nj) by (apply Z.div_pos; lia).
    unfold npj. dif E3; nia. }
  dif E3; [lia|].
  destruct (sky2image_jobs ra nj npj) as (J1 & _ & _); [exact Hnj|lia|lia|].
  assert (F : flat_map (map g) (sky_jobs ra npj (zrange nj)) = map g ra).
  { rewrite flat_map_concat_map, <- concat_map, J1. reflexivity. }
  rewrite F, zlen_map. dif E4; [lia|reflexivity].
Qed.

(** * PSF layout *)

Section PsfLayout.
  Context (c : lconf) (pc : pconf) (psfs : list psfobj).

  Definition file_valid (s : slot) : Prop := 0 <= s_file s < zlen psfs.

  Definition psh (o : obj) (s : slot) : Z * Z :=
    match zget psfs (s_file s) with
    | Some p => psf_shape p (s_orow s) (s_ocol s) (psf_color_arg c pc (s_file s) o)
    | None => (0, 0)
    end.
  Definition pcen (s : slot) : Q * Q :=
    match zget psfs (s_file s) with Some p => p_center p (s_orow s) (s_ocol s) | None => (0%Q, 0%Q) end.
  Definition pnpix (o : obj) (s : slot) : Z := fst (psh o s) * snd (psh o s).

  Fixpoint pstarts (n : nat) (start : Z) (o : obj) (sl : list slot) : list slot :=
    match n, sl with
    | S n', s :: sl' =>
      set_psf s (fst (psh o s)) (snd (psh o s)) (fst (pcen s)) (snd (pcen s)) start
      :: pstarts n' (start + pnpix o s) o sl'
    | _, _ => sl
    end.
  Fixpoint psum (n : nat) (o : obj) (sl : list slot) : Z :=
    match n, sl with S n', s :: sl' => pnpix o s + psum n' o sl' | _, _ => 0 end.

  Lemma psf_fold o n : forall pre sl start total, (n <= length sl)%nat ->
    Forall file_valid (firstn n sl) ->
    foldM (psf_layout_cut c pc psfs o) (map Z.of_nat (seq (length pre) n)) (pre ++ sl, start, total)
    = Ok (pre ++ pstarts n start o sl, start + psum n o sl, total + psum n o sl).
  Proof.
    induction n as [|n IH]; intros pre sl start total Hn Hv; cbn [seq map foldM pstarts psum].
    - rewrite !Z.add_0_r. reflexivity.
    - destruct sl as [|s sl]; simpl in Hn; [lia|]. cbn [firstn] in Hv.
      inversion Hv as [|x xs Hf Hv']; subst.
      unfold psf_layout_cut at 1. rewrite py_index_nonneg by lia. rewrite zget_nat, nth_app_mid. cbn [bind].
      destruct (zget_range_Some psfs (s_file s) Hf) as (p & Hp).
      rewrite (proj2 (py_index_ok_nonneg psfs (s_file s) p (proj1 Hf))) by exact Hp. cbn [bind].
      unfold modify. rewrite Nat2Z.id, nth_app_mid. cbn [bind]. rewrite upd_app_mid.
      assert (E1 : psf_shape p (s_orow s) (s_ocol s) (psf_color_arg c pc (s_file s) o) = psh o s)
        by (unfold psh; rewrite Hp; reflexivity).
      assert (E2 : p_center p (s_orow s) (s_ocol s) = pcen s) by (unfold pcen; rewrite Hp; reflexivity).
      rewrite E1, E2. fold (pnpix o s).
      set (s' := set_psf s (fst (psh o s)) (snd (psh o s)) (fst (pcen s)) (snd (pcen s)) start).
      replace (pre ++ s' :: sl) with ((pre ++ [s']) ++ sl) by (rewrite <- app_assoc; reflexivity).
      specialize (IH (pre ++ [s']) sl (start + pnpix o s) (total + pnpix o s)).
      rewrite app_length, Nat.add_1_r in IH.
      eapply eq_trans; [apply IH; [lia|exact Hv']|].
      rewrite <- app_assoc. cbn [app]. f_equal; f_equal; [f_equal|]; ring.
  Qed.

  Definition pstarted (start : Z) (o : obj) : obj :=
    set_slots o (pstarts (Z.to_nat (o_ncut o)) start o (o_slots o)).
  Definition ptotal (o : obj) : Z := psum (Z.to_nat (o_ncut o)) o (o_slots o).
  Fixpoint pstarted_cat (start : Z) (cat : list obj) : list obj :=
    match cat with [] => [] | o :: cat' => pstarted start o :: pstarted_cat (start + ptotal o) cat' end.

  Lemma psf_layout_loop_eq cat : Forall ncut_ok cat ->
    Forall (fun o => Forall file_valid (used_slots o)) cat -> forall start total,
    psf_layout_loop c pc psfs cat start total =
    Ok (pstarted_cat start cat, start + fold_right Z.add 0 (map ptotal cat),
        total + fold_right Z.add 0 (map ptotal cat)).
  Proof.
    induction 1 as [|o cat Ho Hc IH]; intros Hv start total; cbn [psf_layout_loop].
    - simpl. rewrite !Z.add_0_r. reflexivity.
    - inversion Hv as [|x xs Hv1 Hv2]; subst.
      pose proof (psf_fold o (Z.to_nat (o_ncut o)) [] (o_slots o) start total) as F.
      cbn [app length] in F. fold (zrange (o_ncut o)) in F.
      unfold ncut_ok, zlen in Ho. rewrite F by (try exact Hv1; lia). cbn [bind]. fold (ptotal o).
      rewrite IH by exact Hv2. cbn [bind map fold_right pstarted_cat]. unfold pstarted at 1.
      rewrite !Z.add_assoc. reflexivity.
  Qed.

  Lemma set_psf_layout_eq cat : Forall ncut_ok cat ->
    Forall (fun o => Forall file_valid (used_slots o)) cat ->
    set_psf_layout c pc psfs cat = Ok (pstarted_cat 0 cat, fold_right Z.add 0 (map ptotal cat)).
  Proof.
    intros H1 H2. unfold set_psf_layout. rewrite psf_layout_loop_eq by assumption.
    cbn [bind]. rewrite Z.add_0_l. reflexivity.
  Qed.

  Lemma pstarts_length o n : forall start sl, length (pstarts n start o sl) = length sl.
  Proof. induction n as [|n IH]; intros start [|s sl]; simpl; auto. Qed.

  (** Slot [k] before and after: only the psf fields of used slots change. *)
  Lemma pstarts_nth o n : forall start sl k s', nth_error (pstarts n start o sl) k = Some s' ->
    exists s st, nth_error sl k = Some s /\
      s' = if (k <? n)%nat
           then set_psf s (fst (psh o s)) (snd (psh o s)) (fst (pcen s)) (snd (pcen s)) st else s.
  Proof.
    induction n as [|n IH]; intros start sl k s' H.
    - simpl in H. destruct sl; exists s', 0; split; auto.
    - destruct sl as [|s sl]; [destruct k; discriminate|]. cbn [pstarts] in H. destruct k as [|k].
      + simpl in H. inversion H; subst. exists s, start. split; reflexivity.
      + simpl in H. apply IH in H. destruct H as (s0 & st & H1 & H2). exists s0, st. split; [exact H1|].
        exact H2.
  Qed.

  Lemma pstarts_tiles o n : forall start sl, (n <= length sl)%nat ->
    Forall (fun s => 0 <= pnpix o s) (firstn n sl) ->
    tiles start (map (fun s => (s_psf_start s, s_psf_start s + s_psf_nr s * s_psf_nc s))
                     (firstn n (pstarts n start o sl))) (start + psum n o sl).
  Proof.
    induction n as [|n IH]; intros start sl Hn Hp.
    - simpl. rewrite Z.add_0_r. constructor.
    - destruct sl as [|s sl]; simpl in Hn; [lia|]. cbn [firstn] in Hp.
      inversion Hp as [|x xs Hp1 Hp2]; subst. cbn [pstarts firstn map psum].
      cbn [s_psf_start s_psf_nr s_psf_nc set_psf]. fold (pnpix o s). constructor; [lia|].
      rewrite Z.add_assoc. apply IH; [lia|exact Hp2].
  Qed.

  Lemma pstarted_cat_tiles cat : Forall ncut_ok cat ->
    Forall (fun o => Forall (fun s => 0 <= pnpix o s) (used_slots o)) cat -> forall start,
    tiles start (psf_ranges (pstarted_cat start cat)) (start + fold_right Z.add 0 (map ptotal cat)).
  Proof.
    induction 1 as [|o cat Ho Hc IH]; intros Hp start.
    - simpl. rewrite Z.add_0_r. constructor.
    - inversion Hp as [|x xs Hp1 Hp2]; subst. cbn [pstarted_cat map fold_right].
      unfold psf_ranges. cbn [flat_map]. rewrite Z.add_assoc. apply tiles_app with (m := start + ptotal o).
      + unfold used_slots, pstarted. cbn [o_ncut o_slots set_slots]. apply pstarts_tiles.
        * unfold ncut_ok, zlen in Ho. lia.
        * exact Hp1.
      + apply IH. exact Hp2.
  Qed.

  Lemma pstarted_cat_Forall2 cat : forall start,
    Forall2 (fun o o' => exists st, o' = pstarted st o) cat (pstarted_cat start cat).
  Proof.
    induction cat as [|o cat IH]; intros start; cbn [pstarted_cat]; constructor.
    - exists start; reflexivity.
    - apply IH.
  Qed.

  (** * Writers *)

  Definition rendered (o : obj) (s : slot) : img Q :=
    match zget psfs (s_file s) with
    | Some p => p_rec p (s_orow s) (s_ocol s) (psf_color_arg c pc (s_file s) o)
    | None => mkImg 0 0 []
    end.

  Lemma render_eq o s : file_valid s -> render c pc psfs o s = Ok (rendered o s).
  Proof.
    intros H. unfold render, rendered. destruct (zget_range_Some psfs (s_file s) H) as (p & Hp).
    rewrite (proj2 (py_index_ok_nonneg psfs (s_file s) p (proj1 H))) by exact Hp. rewrite Hp. reflexivity.
  Qed.

  Lemma keys_valid cat k : Forall ncut_ok cat -> Forall (fun o => Forall file_valid (used_slots o)) cat ->
    In k (cat_keys cat) -> file_valid (k_slot k).
  Proof.
    intros Hn Hv Hk. destruct k as [[o i] s]. apply in_cat_keys' in Hk; [|exact Hn].
    destruct Hk as (Ho & Hi & Hs). rewrite Forall_forall in Hv. specialize (Hv o Ho).
    rewrite Forall_forall in Hv. apply Hv. unfold used_slots, k_slot; simpl.
    unfold zget in Hs. destruct (i <? 0) eqn:E; [discriminate|].
    apply (nth_error_In _ (Z.to_nat i)). rewrite nth_error_firstn. dif E2; [exact Hs|lia].
  Qed.

  Lemma serial_flat cat hdu : Forall ncut_ok cat ->
    Forall (fun o => Forall file_valid (used_slots o)) cat ->
    write_psf_serial c pc psfs cat hdu =
    foldM (fun h k => put_psf (k_slot k) (rendered (k_obj k) (k_slot k)) h) (cat_keys cat) hdu.
  Proof.
    intros Hn Hv. unfold write_psf_serial.
    rewrite (foldM_cat_keys (fun h o _ s => let* im := render c pc psfs o s in put_psf s im h)) by exact Hn.
    apply foldM_ext_in. intros h k Hk. rewrite render_eq by (apply (keys_valid cat); assumption). reflexivity.
  Qed.

  Lemma foldM_append {X Y} (g : X -> Y) xs : forall acc,
    foldM (fun acc x => Ok (acc ++ [g x])) xs acc = Ok (acc ++ map g xs).
  Proof.
    induction xs as [|x xs IH]; intros acc; simpl; [rewrite app_nil_r; reflexivity|].
    rewrite IH, <- app_assoc. reflexivity.
  Qed.

  Lemma psf_job_eq objs : Forall ncut_ok objs -> Forall (fun o => Forall file_valid (used_slots o)) objs ->
    psf_job c pc psfs objs = Ok (map (fun k => rendered (k_obj k) (k_slot k)) (cat_keys objs)).
  Proof.
    intros Hn Hv. unfold psf_job.
    rewrite (foldM_cat_keys (fun acc o _ s => let* im := render c pc psfs o s in Ok (acc ++ [im]))) by exact Hn.
    erewrite foldM_ext_in; [apply (foldM_append (fun k => rendered (k_obj k) (k_slot k)))|].
    intros acc k Hk. cbn beta. rewrite render_eq by (apply (keys_valid objs); assumption). reflexivity.
  Qed.

  Lemma put_loop ks : forall pre outs hdu, length outs = length ks ->
    (let* st := foldM (fun (st : list Q * Z) (k : obj * Z * slot) =>
        let '(hdu, loc) := st in
        let* psfim := py_index (pre ++ outs) loc in
        let* hdu' := put_psf (k_slot k) psfim hdu in Ok (hdu', loc + 1)) ks (hdu, zlen pre) in
     Ok (fst st))
    = foldM (fun h ko => put_psf (k_slot (fst ko)) (snd ko) h) (combine ks outs) hdu.
  Proof.
    induction ks as [|k ks IH]; intros pre outs hdu HL; [reflexivity|].
    destruct outs as [|im outs]; [discriminate|]. cbn [foldM combine fst snd].
    rewrite py_index_nonneg by (unfold zlen; lia). unfold zlen at 1. rewrite zget_nat, nth_app_mid. cbn [bind].
    destruct (put_psf (k_slot k) im hdu) as [h|e]; cbn [bind]; [|reflexivity].
    specialize (IH (pre ++ [im]) outs h). rewrite zlen_app in IH.
    rewrite <- app_assoc in IH. cbn [app] in IH. apply IH. simpl in HL. lia.
  Qed.

  Lemma psf_write_job_eq objs hdu : Forall ncut_ok objs ->
    psf_write_job objs (map (fun k => rendered (k_obj k) (k_slot k)) (cat_keys objs)) hdu =
    foldM (fun h k => put_psf (k_slot k) (rendered (k_obj k) (k_slot k)) h) (cat_keys objs) hdu.
  Proof.
    intros Hn. unfold psf_write_job.
    set (outs := map (fun k => rendered (k_obj k) (k_slot k)) (cat_keys objs)).
    assert (E : forall st0, foldM (fun (st : list Q * Z) o =>
      foldM (fun (st : list Q * Z) icut =>
      let '(hdu, loc) := st in
      let* s := get_slot o icut in
      let* psfim := py_index outs loc in
      let* hdu' := put_psf s psfim hdu in
      Ok (hdu', loc + 1)) (zrange (o_ncut o)) st) objs st0
      = foldM (fun (st : list Q * Z) (k : obj * Z * slot) =>
        let '(hdu, loc) := st in
        let* psfim := py_index outs loc in
        let* hdu' := put_psf (k_slot k) psfim hdu in Ok (hdu', loc + 1)) (cat_keys objs) st0).
    { intros st0.
      rewrite <- (foldM_cat_keys (fun st o _ s => let '(hdu, loc) := st in
        let* psfim := py_index outs loc in
        let* hdu' := put_psf s psfim hdu in Ok (hdu', loc + 1))) by exact Hn.
      apply foldM_ext. intros st o. apply foldM_ext. intros [h l] i. reflexivity. }
    rewrite E. pose proof (put_loop (cat_keys objs) [] outs hdu) as P. cbn [app] in P.
    change (zlen (@nil (img Q))) with 0 in P. rewrite P by (unfold outs; apply map_length).
    unfold outs. clear. generalize (cat_keys objs). intros ks. revert hdu.
    induction ks as [|k ks IH]; intros hdu; [reflexivity|]. cbn [map combine foldM fst snd].
    apply bind_ext. intros h _. apply IH.
  Qed.

  Lemma cat_keys_app a b : cat_keys (a ++ b) = cat_keys a ++ cat_keys b.
  Proof. unfold cat_keys. apply flat_map_app. Qed.

  Lemma firstn_skipn_In {A} (l : list A) a b x : In x (firstn a (skipn b l)) -> In x l.
  Proof.
    intros H. assert (In x (skipn b l)).
    { rewrite <- (firstn_skipn a (skipn b l)). apply in_or_app. left; exact H. }
    rewrite <- (firstn_skipn b l). apply in_or_app. right; assumption.
  Qed.

  Lemma joblib_serial n cat hdu : 1 <= n -> Forall ncut_ok cat ->
    Forall (fun o => Forall file_valid (used_slots o)) cat ->
    write_psf_joblib n c pc psfs cat hdu = write_psf_serial c pc psfs cat hdu.
  Proof.
    intros Hn Hc Hv. rewrite serial_flat by assumption. unfold write_psf_joblib.
    set (nj := if zlen cat / n * n <? zlen cat then zlen cat / n + 1 else zlen cat / n).
    assert (Hnj : 0 <= nj /\ zlen cat <= nj * n).
    { pose proof (Z.div_mod (zlen cat) n ltac:(lia)). pose proof (Z.mod_pos_bound (zlen cat) n ltac:(lia)).
      pose proof (zlen_nonneg cat). assert (0 <= zlen cat / n) by (apply Z.div_pos; lia).
      unfold nj. dif E; nia. }
    assert (Hin : forall j o, In o (job_objs cat n j) -> In o cat).
    { intros j o H. unfold job_objs in H. eapply firstn_skipn_In; exact H. }
    assert (HF : forall (P : obj -> Prop) j, Forall P cat -> Forall P (job_objs cat n j)).
    { intros P j HP. apply Forall_forall. intros o Ho. rewrite Forall_forall in HP. apply HP, (Hin j), Ho. }
    rewrite (mapM_map_ok _ (fun j => map (fun k => rendered (k_obj k) (k_slot k)) (cat_keys (job_objs cat n j)))).
    2:{ intros j _. apply psf_job_eq; apply HF; assumption. }
    cbn [bind].
    assert (E : forall js hdu, foldM (fun hdu jo => psf_write_job (job_objs cat n (fst jo)) (snd jo) hdu)
       (combine js (map (fun j => map (fun k => rendered (k_obj k) (k_slot k)) (cat_keys (job_objs cat n j))) js)) hdu
       = foldM (fun h k => put_psf (k_slot k) (rendered (k_obj k) (k_slot k)) h)
           (cat_keys (flat_map (job_objs cat n) js)) hdu).
    { induction js as [|j js IH]; intros h; [reflexivity|]. cbn [map combine foldM fst snd flat_map].
      rewrite psf_write_job_eq by (apply HF; exact Hc). rewrite cat_keys_app, foldM_app.
      apply bind_ext. intros h' _. apply IH. }
    rewrite E. f_equal. f_equal. apply (chunks_all cat n nj); lia.
  Qed.

  (** If the writer succeeds every image had the announced shape. *)
  Lemma put_all_shapes ks : forall hdu hdu',
    foldM (fun h k => put_psf (k_slot k) (rendered (k_obj k) (k_slot k)) h) ks hdu = Ok hdu' ->
    forall k, In k ks -> nr (rendered (k_obj k) (k_slot k)) = s_psf_nr (k_slot k) /\
                         nc (rendered (k_obj k) (k_slot k)) = s_psf_nc (k_slot k).
  Proof.
    induction ks as [|k ks IH]; intros hdu hdu' H k' Hk'; [contradiction|].
    cbn [foldM] in H. apply bind_ok in H. destruct H as (h & H1 & H2).
    destruct Hk' as [<-|Hk']; [|eapply IH; eassumption].
    unfold put_psf in H1. dif_in H1 E; [lia|discriminate].
  Qed.
End PsfLayout.
