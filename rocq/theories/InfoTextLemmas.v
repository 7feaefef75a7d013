(** Proofs about the text columns. *)
From Coq Require Import String Ascii Lia ZifyBool.
From Verif Require Import Base BaseLemmas Img Types MakerLayout WcsSel InfoText SpecInfoText MakerLemmas.
Open Scope Z_scope.
Open Scope list_scope.

(** * Brackets *)
Definition bst : Type := bool * bool * Z.
Definition step (s : bst) (c : ascii) : bst :=
  let '(q, e, d) := s in
  if q then if e then (true, false, d) else if (c =? backslash)%char then (true, true, d)
    else if (c =? quote)%char then (false, false, d) else (true, false, d)
  else if (c =? quote)%char then (true, false, d)
  else if ((c =? "{") || (c =? "["))%char then (false, false, d + 1)
  else if ((c =? "}") || (c =? "]"))%char then (false, false, d - 1) else (false, false, d).
Definition scan (s : bst) (t : text) : bst := fold_left step t s.
Definition deep (s : bst) : Z := snd s.

Lemma scan_app s a b : scan s (a ++ b) = scan (scan s a) b.
Proof. apply fold_left_app. Qed.

Lemma scan_body t : str_body t -> forall d, scan (true, false, d) t = (true, false, d) /\
  forall p r, t = p ++ r -> deep (scan (true, false, d) p) = d.
Proof.
  induction 1 as [|c t N1 N2 H IH|c t H IH]; intros d.
  - split; [reflexivity|]. intros p r E. symmetry in E. apply app_eq_nil in E. destruct E as [-> _]. reflexivity.
  - apply Ascii.eqb_neq in N1, N2.
    assert (S : step (true, false, d) c = (true, false, d)) by (cbn [step]; rewrite N1, N2; reflexivity).
    destruct (IH d) as (A & B). split; [unfold scan in *; cbn [fold_left]; rewrite S; exact A|].
    intros [|c' p] r E; [reflexivity|]. cbn [app] in E. injection E as <- E. unfold scan in *. cbn [fold_left]. rewrite S. exact (B p r E).
  - destruct (IH d) as (A & B). split; [unfold scan in *; cbn [fold_left]; cbn; exact A|].
    intros [|c' [|c'' p]] r E; [reflexivity|cbn [app] in E; injection E as <- E; reflexivity|].
    cbn [app] in E. injection E as <- <- E. exact (B p r E).
Qed.

Lemma prefix_split {A} (a b p r : list A) : a ++ b = p ++ r ->
  (exists x, a = p ++ x) \/ (exists x, p = a ++ x /\ b = x ++ r).
Proof.
  revert p. induction a as [|x a IH]; intros p E; cbn [app] in E.
  - right. exists p. split; [reflexivity|exact E].
  - destruct p as [|y p]; [left; exists (x :: a); reflexivity|]. cbn [app] in E. injection E as <- E.
    destruct (IH p E) as [(z & ->)|(z & -> & ->)]; [left; exists z; reflexivity|right; exists z; split; reflexivity].
Qed.

Lemma scan_bracket o c s t : (o = "{" /\ c = "}" \/ o = "[" /\ c = "]")%char ->
  (forall d, scan (false, false, d) s = (false, false, d) /\ forall p r, s = p ++ r -> d <= deep (scan (false, false, d) p)) ->
  (forall d, scan (false, false, d) t = (false, false, d) /\ forall p r, t = p ++ r -> d <= deep (scan (false, false, d) p)) ->
  forall d, scan (false, false, d) (o :: s ++ c :: t) = (false, false, d) /\
    forall p r, o :: s ++ c :: t = p ++ r -> d <= deep (scan (false, false, d) p).
Proof.
  intros OC Hs Ht d.
  assert (So : forall q, scan (false, false, d) (o :: q) = scan (false, false, d + 1) q) by (intros q; destruct OC as [(-> & ->)|(-> & ->)]; reflexivity).
  assert (Sc : forall q, scan (false, false, d + 1) (c :: q) = scan (false, false, d + 1 - 1) q) by (intros q; destruct OC as [(-> & ->)|(-> & ->)]; reflexivity).
  replace (d + 1 - 1) with d in Sc by lia.
  split.
  - rewrite So, scan_app, (proj1 (Hs (d + 1))), Sc. apply Ht.
  - intros [|x p] r E; [cbn; lia|]. cbn [app] in E. injection E as <- E. rewrite So.
    apply prefix_split in E. destruct E as [(y & E)|(y & -> & E)].
    + pose proof (proj2 (Hs (d + 1)) p y E). lia.
    + rewrite scan_app, (proj1 (Hs (d + 1))). destruct y as [|z y]; [cbn; lia|].
      cbn [app] in E. injection E as <- E. rewrite Sc. exact (proj2 (Ht d) y r E).
Qed.

Lemma scan_balanced t : balanced t -> forall d, scan (false, false, d) t = (false, false, d) /\
  forall p r, t = p ++ r -> d <= deep (scan (false, false, d) p).
Proof.
  induction 1 as [|c t N H IH|s t Hs H IH|s t H1 IH1 H2 IH2|s t H1 IH1 H2 IH2]; intros d.
  - split; [reflexivity|]. intros p r E. symmetry in E. apply app_eq_nil in E. destruct E as [-> _]. cbn. lia.
  - assert (S : step (false, false, d) c = (false, false, d)).
    { cbn [step]. cbn [In] in N. destruct (Ascii.eqb_spec c quote) as [->|_]; [tauto|].
      destruct (Ascii.eqb_spec c "{") as [->|_]; [tauto|]. destruct (Ascii.eqb_spec c "[") as [->|_]; [tauto|].
      destruct (Ascii.eqb_spec c "}") as [->|_]; [tauto|]. destruct (Ascii.eqb_spec c "]") as [->|_]; [tauto|]. reflexivity. }
    destruct (IH d) as (A & B). split; [unfold scan in *; cbn [fold_left]; rewrite S; exact A|].
    intros [|c' p] r E; [cbn; lia|]. cbn [app] in E. injection E as <- E. unfold scan in *. cbn [fold_left]. rewrite S. exact (B p r E).
  - assert (Sq : forall q, scan (false, false, d) (quote :: q) = scan (true, false, d) q) by reflexivity.
    assert (Sq' : forall q, scan (true, false, d) (quote :: q) = scan (false, false, d) q) by reflexivity.
    destruct (scan_body s Hs d) as (A & B). split.
    + rewrite Sq, scan_app, A, Sq'. apply IH.
    + intros [|x p] r E; [cbn; lia|]. cbn [app] in E. injection E as <- E. rewrite Sq.
      apply prefix_split in E. destruct E as [(y & E)|(y & -> & E)]; [rewrite (B p y E); lia|].
      rewrite scan_app, A. destruct y as [|z y]; [cbn; lia|]. cbn [app] in E. injection E as <- E. rewrite Sq'. exact (proj2 (IH d) y r E).
  - apply scan_bracket; auto.
  - apply scan_bracket; auto.
Qed.

Lemma prefix_not_balanced t p r : object_text t -> t = p ++ r -> p <> [] -> r <> [] -> ~ balanced p.
Proof.
  intros (s & Hs & ->) E Np Nr Hp. destruct p as [|x p]; [congruence|]. cbn [app] in E. injection E as <- E.
  assert (Q : exists y, s = p ++ y).
  { apply prefix_split in E. destruct E as [(y & E)|(y & -> & E)]; [exists y; exact E|].
    destruct y as [|z y]; [exists []; rewrite !app_nil_r; reflexivity|]. cbn [app] in E. injection E as _ E. symmetry in E. apply app_eq_nil in E. destruct E as (_ & E). congruence. }
  destruct Q as (y & Q). pose proof (proj2 (scan_balanced s Hs 1) p y Q) as D.
  pose proof (proj1 (scan_balanced _ Hp 0)) as Z. change (scan (false, false, 0) ("{"%char :: p)) with (scan (false, false, 1) p) in Z.
  rewrite Z in D. cbn in D. lia.
Qed.

(** * Stripping *)
Lemma lstrip_suffix p t : exists a, t = a ++ lstrip p t /\ forallb p a = true.
Proof.
  induction t as [|c t (a & E & F)]; [exists []; split; reflexivity|]. cbn [lstrip]. destruct (p c) eqn:Ec.
  - exists (c :: a). split; [cbn [app]; rewrite <- E; reflexivity|cbn [forallb]; rewrite Ec; exact F].
  - exists []. split; reflexivity.
Qed.
Lemma lstrip_id p t : (forall c t', t = c :: t' -> p c = false) -> lstrip p t = t.
Proof. destruct t as [|c t]; intros H; [reflexivity|]. cbn [lstrip]. rewrite (H c t eq_refl). reflexivity. Qed.
Lemma lstrip_app p a t : forallb p a = true -> lstrip p (a ++ t) = lstrip p t.
Proof. induction a as [|c a IH]; intros H; [reflexivity|]. cbn [forallb] in H. apply andb_prop in H. destruct H as (H & H'). cbn [app lstrip]. rewrite H. apply IH, H'. Qed.
Lemma rstrip_prefix p t : exists b, t = rstrip p t ++ b /\ forallb p b = true.
Proof.
  destruct (lstrip_suffix p (rev t)) as (a & E & F). exists (rev a). split.
  - unfold rstrip. rewrite <- rev_app_distr, <- E, rev_involutive. reflexivity.
  - rewrite forallb_forall in *. intros c Hc. apply F. apply in_rev. exact Hc.
Qed.
Lemma rstrip_id p t : (forall c t', t = t' ++ [c] -> p c = false) -> rstrip p t = t.
Proof.
  intros H. unfold rstrip. rewrite lstrip_id; [apply rev_involutive|]. intros c t' E. apply (H c (rev t')).
  rewrite <- (rev_involutive t), E. cbn [rev]. reflexivity.
Qed.
Lemma rstrip_app p t b : forallb p b = true -> rstrip p (t ++ b) = rstrip p t.
Proof.
  intros H. unfold rstrip. rewrite rev_app_distr, lstrip_app; [reflexivity|]. rewrite forallb_forall in *. intros c Hc. apply H. apply in_rev. exact Hc.
Qed.
Lemma forallb_repeat (p : ascii -> bool) c n : p c = true -> forallb p (repeat c n) = true.
Proof. intros H. induction n; [reflexivity|]. cbn [repeat forallb]. rewrite H. exact IHn. Qed.

Lemma set_text_inv len t b : set_text len t = Ok b -> is_ascii t /\
  b = firstn (Z.to_nat len) t ++ repeat zero (Z.to_nat len - length (firstn (Z.to_nat len) t)).
Proof.
  unfold set_text. destruct (forallb _ t) eqn:F; intros H; [|discriminate]. injection H as <-. split; [|reflexivity].
  intros c Hc. rewrite forallb_forall in F. specialize (F c Hc). lia.
Qed.
Lemma set_text_ok len t : is_ascii t -> exists b, set_text len t = Ok b.
Proof.
  intros H. unfold set_text. assert (F : forallb (fun c => code c <? 128) t = true) by (apply forallb_forall; intros c Hc; specialize (H c Hc); lia).
  rewrite F. eexists. reflexivity.
Qed.

Lemma get_set len t b : set_text len t = Ok b -> get_text b = rstrip is_nul (firstn (Z.to_nat len) t).
Proof. intros H. destruct (set_text_inv _ _ _ H) as (_ & ->). apply rstrip_app, forallb_repeat. reflexivity. Qed.

Lemma firstn_fits {A} len (t : list A) : zlen t <= len -> firstn (Z.to_nat len) t = t.
Proof. intros H. apply firstn_all2. unfold zlen in H. lia. Qed.

Lemma text_kept len t b : 0 <= len -> set_text len t = Ok b -> (get_text b = t <-> zlen t <= len /\ no_nul_end t).
Proof.
  intros L H. rewrite (get_set _ _ _ H). split.
  - intros E. destruct (rstrip_prefix is_nul (firstn (Z.to_nat len) t)) as (r & P & _).
    assert (K : zlen t <= len).
    { rewrite E in P. assert (Q := f_equal (@length _) P). rewrite app_length, firstn_length in Q. unfold zlen. lia. }
    split; [exact K|]. rewrite (firstn_fits _ _ K) in E. intros c t' ->. intros Z.
    unfold rstrip in E. rewrite rev_app_distr in E. cbn [rev app lstrip] in E. unfold is_nul in E at 1. rewrite Z in E. cbn in E.
    assert (Q := f_equal (@length _) E). rewrite rev_length, app_length in Q. cbn in Q. destruct (lstrip_suffix is_nul (rev t')) as (a & Q' & _).
    assert (Q2 := f_equal (@length _) Q'). rewrite rev_length, app_length in Q2. unfold is_nul in *. lia.
  - intros (K & N). rewrite (firstn_fits _ _ K). apply rstrip_id. intros c t' ->. unfold is_nul. specialize (N c t' eq_refl). lia.
Qed.

Lemma clean_no_nul t : clean t -> no_nul_end t.
Proof. intros (_ & H) c t' E N. apply (H c t' E). left. exact N. Qed.
Lemma clean_strip t : clean t -> strip t = t.
Proof.
  intros (A & B). unfold strip. rewrite lstrip_id.
  - apply rstrip_id. intros c t' E. specialize (B c t' E). unfold is_space, blank in *. lia.
  - intros c t' E. specialize (A c t' E). unfold is_space, blank in *. lia.
Qed.

Lemma names_kept len t b pad : 0 <= len -> set_text len t = Ok b -> zlen t <= len -> clean t ->
  maker_path b = t /\ (code pad = 0 \/ code pad = 32 -> strip (get_text (on_disk pad b)) = t).
Proof.
  intros L H K C. assert (G : get_text b = t) by (apply (proj2 (text_kept _ _ _ L H)); split; [exact K|exact (clean_no_nul _ C)]).
  split; [unfold maker_path; rewrite G; apply clean_strip, C|]. intros P. unfold on_disk. rewrite G.
  set (n := (length b - length t)%nat). clearbody n.
  destruct P as [P|P].
  - unfold get_text. rewrite rstrip_app by (apply forallb_repeat; unfold is_nul; lia).
    rewrite rstrip_id; [apply clean_strip, C|]. intros c t' E. unfold is_nul. pose proof (clean_no_nul _ C c t' E). lia.
  - assert (E : get_text (t ++ repeat pad n) = t ++ repeat pad n).
    { apply rstrip_id. intros c t' E. unfold is_nul. destruct n as [|n].
      - cbn in E. rewrite app_nil_r in E. pose proof (clean_no_nul _ C c t' E). lia.
      - replace (repeat pad (S n)) with (repeat pad n ++ [pad]) in E by (rewrite <- repeat_cons; reflexivity).
        rewrite app_assoc in E. apply app_inj_tail in E. destruct E as (_ & <-). lia. }
    rewrite E. unfold strip. assert (Sp : forallb is_space (repeat pad n) = true) by (apply forallb_repeat; unfold is_space; lia).
    destruct t as [|c t0].
    + cbn [app]. replace (repeat pad n) with (repeat pad n ++ []) by apply app_nil_r. rewrite lstrip_app by exact Sp. reflexivity.
    + rewrite lstrip_id.
      * rewrite rstrip_app by exact Sp. rewrite <- (clean_strip _ C) at 2. unfold strip. rewrite lstrip_id; [reflexivity|].
        intros c' t' E'. destruct C as (A & _). specialize (A c' t' E'). unfold is_space, blank in *. lia.
      * intros c' t' E'. cbn [app] in E'. injection E' as <- _. destruct C as (A & _). specialize (A c t0 eq_refl). unfold is_space, blank in *. lia.
Qed.

Lemma cut_names len t b : 0 <= len -> set_text len t = Ok b -> len < zlen t -> zlen (get_text b) <= len /\ get_text b <> t /\
  forall t', is_ascii t' -> firstn (Z.to_nat len) t' = firstn (Z.to_nat len) t -> set_text len t' = Ok b.
Proof.
  intros L H K. pose proof (get_set _ _ _ H) as G. split; [|split].
  - rewrite G. destruct (rstrip_prefix is_nul (firstn (Z.to_nat len) t)) as (r & P & _).
    assert (Q := f_equal (@length _) P). rewrite app_length, firstn_length in Q. unfold zlen. lia.
  - intros E. apply (text_kept _ _ _ L H) in E. lia.
  - intros t' A E. destruct (set_text_ok len t' A) as (b' & H'). rewrite H'. f_equal.
    destruct (set_text_inv _ _ _ H) as (_ & ->). destruct (set_text_inv _ _ _ H') as (_ & ->). rewrite E. reflexivity.
Qed.

(** * Astrometry texts *)
Lemma object_no_nul t : object_text t -> no_nul_end t.
Proof.
  intros (s & _ & ->) c t' E. change ("{"%char :: s ++ ["}"%char]) with (("{"%char :: s) ++ ["}"%char]) in E.
  apply app_inj_tail in E. destruct E as (_ & <-). cbv. discriminate.
Qed.

Lemma of_to t : of_str (to_str t) = t.
Proof. apply list_ascii_of_string_of_list_ascii. Qed.
Lemma to_of s : to_str (of_str s) = s.
Proof. apply string_of_list_ascii_of_string. Qed.

Lemma astrometry_text W len t b : 0 <= len -> accepts_json W -> object_text t -> set_text len t = Ok b ->
  (zlen t <= len -> get_text b = t) /\ (len < zlen t -> exists e, json_loads W (to_str (get_text b)) = Err e).
Proof.
  intros L A O H. split.
  - intros K. apply (text_kept _ _ _ L H). split; [exact K|apply object_no_nul, O].
  - intros K. destruct (json_loads W (to_str (get_text b))) as [h|e] eqn:J; [exfalso|eexists; reflexivity].
    apply A in J. destruct J as (J1 & J2). rewrite of_to in J2. rewrite (get_set _ _ _ H) in J1, J2.
    destruct (rstrip_prefix is_nul (firstn (Z.to_nat len) t)) as (r & P & _). set (p := rstrip is_nul (firstn (Z.to_nat len) t)) in *. clearbody p.
    apply (prefix_not_balanced t p (r ++ skipn (Z.to_nat len) t) O); [rewrite app_assoc, <- P, firstn_skipn; reflexivity| | |exact J2].
    + intros ->. apply J1. reflexivity.
    + intros E. apply app_eq_nil in E. destruct E as (_ & E). assert (Q := f_equal (@length _) E). rewrite skipn_length in Q. cbn in Q. unfold zlen in K. lia.
Qed.

Lemma versions_kept v : is_ascii v -> no_nul_end v -> exists b, version_text v = Ok b /\ get_text b = v.
Proof.
  intros A N. destruct (set_text_ok (zlen v) v A) as (b & H). exists b. split; [exact H|].
  apply (text_kept _ _ _ (zlen_nonneg v) H). split; [lia|exact N].
Qed.

Lemma stored_row_inv path_len wcs_len row row' W : 0 <= path_len -> 0 <= wcs_len -> accepts_json W ->
  row_ok path_len row -> stored_row path_len wcs_len row = Ok row' ->
  i_path row' = i_path row /\ i_ext row' = i_ext row /\ i_offset row' = i_offset row /\
  (zlen (of_str (i_text row)) <= wcs_len -> i_text row' = i_text row) /\
  (wcs_len < zlen (of_str (i_text row)) -> exists e, json_loads W (i_text row') = Err e).
Proof.
  intros L1 L2 A (K & C & O) H. unfold stored_row in H. apply bind_ok in H. destruct H as (p & Hp & H). apply bind_ok in H. destruct H as (w & Hw & H).
  injection H as <-. cbn [i_path i_ext i_offset i_text].
  destruct (names_kept _ _ _ zero L1 Hp K C) as (N & _). rewrite N, to_of.
  destruct (astrometry_text W _ _ _ L2 A O Hw) as (T1 & T2).
  repeat (split; [reflexivity|]). split; [|exact T2]. intros F. rewrite (T1 F). apply to_of.
Qed.

Lemma stored_wcs W psf has_text path_len wcs_len rows rows' h i : 0 <= path_len -> 0 <= wcs_len -> accepts_json W ->
  Forall (row_ok path_len) rows -> mapM (stored_row path_len wcs_len) rows = Ok rows' ->
  get_wcs W psf has_text rows' h i = get_wcs W psf has_text rows h i \/
  (has_text = true /\ (exists e, get_wcs W psf has_text rows' h i = Err e) /\
   exists row, In row rows /\ wcs_len < zlen (of_str (i_text row))).
Proof.
  intros L1 L2 A F M. apply mapM_ok_Forall2 in M. destruct (Forall2_zget _ _ _ M) as (ML & MZ).
  unfold get_wcs, py_index. rewrite <- ML. set (j := if i <? 0 then i + zlen rows else i). clearbody j.
  destruct (zget rows' j) as [row'|] eqn:E'.
  2:{ left. destruct (zget rows j) as [row|] eqn:E; [|reflexivity]. apply zget_Some_range in E.
      destruct (zget_range_Some rows' j) as (x & Hx); [lia|]. congruence. }
  destruct (zget rows j) as [row|] eqn:E.
  2:{ exfalso. apply zget_Some_range in E'. destruct (zget_range_Some rows j) as (x & Hx); [lia|]. congruence. }
  cbn [bind]. pose proof (zget_In _ _ _ E) as I. rewrite Forall_forall in F.
  destruct (stored_row_inv _ _ _ _ W L1 L2 A (F _ I) (MZ _ _ _ E E')) as (R1 & R2 & _ & R3 & R4). rewrite R1, R2.
  destruct (match psf with Some l => _ | None => _ end) as [[|r|w]|e]; cbn [bind]; try (left; reflexivity).
  destruct has_text; [|left; reflexivity].
  destruct (Z_le_gt_dec (zlen (of_str (i_text row))) wcs_len) as [K|K]; [left; rewrite (R3 K); reflexivity|].
  right. split; [reflexivity|]. split; [|exists row; split; [exact I|lia]].
  destruct (R4 ltac:(lia)) as (e & ->). exists e. reflexivity.
Qed.
