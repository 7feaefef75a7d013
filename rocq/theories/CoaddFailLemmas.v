(** Lemmas on coadd writes that fail. *)
From Coq Require Import Lia ZifyBool ZifyNat String.
From Verif Require Import Base BaseLemmas Img Types MakerLayout MakerWrite MakerFile Reader Composite Coadd CoaddRng MakerFail CoaddFail Meta SpecCoadd SpecCoaddRng SpecCoaddFail
  FailLemmas CoaddRngLemmas2 CoaddRngLemmas3.
Open Scope Z_scope.

(** * With and without the state after an error *)
Lemma planes_agrees types co start ext : agrees (planes_on_disk types co start ext) (foldM (write_type co start) types ext).
Proof. apply loop_agrees. intros. apply step_agrees. Qed.

Lemma object_agrees types x st j : agrees (object_on_disk types x st j) (write_object_cutouts types (fun _ => Ok x) st j).
Proof.
  unfold object_on_disk, write_object_cutouts. cbn [bind]. destruct x as [co fl].
  destruct (zget (ws_rows st) j) as [r|]; cbn [bind]; [|reflexivity].
  destruct co as [co|]; [|reflexivity]. destruct (negb _); [reflexivity|]. cbv zeta.
  destruct (filled_row _ _ _ _ _) as [r'|e]; cbn [bind]; [|reflexivity].
  pose proof (planes_agrees types co (ws_row_start st + ws_size st) (ws_ext st)) as P.
  destruct (foldM _ _ _) as [ext|e]; cbn [bind agrees] in P |- *.
  - rewrite P. destruct (write_at _ _ _); reflexivity.
  - destruct (planes_on_disk _ _ _ _) as [ext e']. cbn [snd] in P. subst e'. reflexivity.
Qed.

Lemma objects_agrees types cs left js st : agrees (objects_on_disk types cs left js st) (foldM (write_object_cutouts_r types cs) js st).
Proof.
  apply loop_agrees. intros [s p] j. unfold write_object_cutouts_r. cbn [fst snd].
  destruct (cs p j) as [x|e]; cbn [bind]; [|reflexivity].
  pose proof (object_agrees types (fst x) s j) as P.
  destruct (write_object_cutouts _ _ _ _) as [s'|e]; cbn [bind agrees] in P |- *.
  - rewrite P. reflexivity.
  - destruct (object_on_disk _ _ _ _) as [s' e']. exact P.
Qed.

Lemma write_agrees f ct tp cs left junk pjunk mk rg path d :
  match coadd_write f ct tp cs junk pjunk mk rg with
  | Ok (mk', g) => exists fd, coadd_write_on_disk f ct tp cs left junk pjunk mk rg path d = ((mk', co_put d path fd), None) /\
                     complete_cofile fd g (cm_rows mk')
  | Err e => exists mk' fd, coadd_write_on_disk f ct tp cs left junk pjunk mk rg path d = ((mk', co_put d path fd), Some e) /\
                     fd_cat fd = None
  end.
Proof.
  unfold coadd_write, coadd_write_on_disk. cbv zeta.
  destruct (match rg with Some r => r | None => _ end) as [a b].
  match goal with |- context [objects_on_disk ?t ?c ?l ?js ?s] => pose proof (objects_agrees t c l js s) as P end.
  destruct (foldM _ _ _) as [st|e]; cbn [bind agrees] in P |- *.
  - rewrite P. eexists. split; [reflexivity|]. repeat split.
  - destruct (objects_on_disk _ _ _ _ _) as [st e']. cbn [snd] in P. subst e'. eexists _, _. split; reflexivity.
Qed.

(** * The theorems on the disk *)
Lemma co_put_same d path f : co_put d path f path = Some f.
Proof. unfold co_put. rewrite String.eqb_refl. reflexivity. Qed.

Lemma complete f ct tp cs left junk pjunk mk rg path d mk' d' e :
  coadd_write_on_disk f ct tp cs left junk pjunk mk rg path d = ((mk', d'), e) ->
  match e with
  | None => exists g fd, coadd_write f ct tp cs junk pjunk mk rg = Ok (mk', g) /\ d' path = Some fd /\
      complete_cofile fd g (cm_rows mk')
  | Some e => coadd_write f ct tp cs junk pjunk mk rg = Err e
  end.
Proof.
  intros H. pose proof (write_agrees f ct tp cs left junk pjunk mk rg path d) as P.
  destruct (coadd_write _ _ _ _ _ _ _ _) as [[mk2 g]|er].
  - destruct P as (fd & P & C). rewrite P in H. injection H as <- <- <-. exists g, fd. split; [reflexivity|].
    split; [apply co_put_same|exact C].
  - destruct P as (mk2 & fd & P & C). rewrite P in H. injection H as <- <- <-. reflexivity.
Qed.

Lemma other_files f ct tp cs left junk pjunk mk rg path d p : p <> path ->
  snd (fst (coadd_write_on_disk f ct tp cs left junk pjunk mk rg path d)) p = d p.
Proof.
  intros N. apply String.eqb_neq in N. pose proof (write_agrees f ct tp cs left junk pjunk mk rg path d) as P.
  destruct (coadd_write _ _ _ _ _ _ _ _) as [[mk2 g]|er].
  - destruct P as (fd & P & _). rewrite P. cbn [fst snd]. unfold co_put. rewrite N. reflexivity.
  - destruct P as (mk2 & fd & P & _). rewrite P. cbn [fst snd]. unfold co_put. rewrite N. reflexivity.
Qed.

Lemma ctype_not_object_data t : lower (ctype_name t ++ "_cutouts") <> "object_data"%string.
Proof. destruct t; discriminate. Qed.

Lemma no_object_data cols fd : fd_cat fd = None -> has_ext (co_names cols fd) "object_data" = false.
Proof.
  intros E. unfold has_ext, co_names. rewrite E. cbn [vf_ext]. rewrite app_nil_r, !map_app.
  change (lower "object_data") with "object_data"%string.
  apply Bool.not_true_is_false. intros H. unfold mem_str in H. apply existsb_exists in H. destruct H as (x & I & H).
  apply String.eqb_eq in H. subst x.
  rewrite !in_app_iff in I. destruct I as [I|[I|I]].
  - cbn in I. intuition discriminate.
  - rewrite map_map in I. apply in_map_iff in I. destruct I as (t & T & _). exact (ctype_not_object_data _ T).
  - cbn in I. intuition discriminate.
Qed.

Lemma refused f ct tp cs left junk pjunk mk rg path d mk' d' e cols :
  coadd_write_on_disk f ct tp cs left junk pjunk mk rg path d = ((mk', d'), Some e) ->
  exists fd, d' path = Some fd /\ open_meds (co_names cols fd) = Err FitsError /\ validate_meds (co_names cols fd) = Err FitsError.
Proof.
  intros H. pose proof (write_agrees f ct tp cs left junk pjunk mk rg path d) as P.
  destruct (coadd_write _ _ _ _ _ _ _ _) as [[mk2 g]|er].
  - destruct P as (fd & P & C). rewrite P in H. discriminate.
  - destruct P as (mk2 & fd & P & C). rewrite P in H. injection H as <- <- <-. exists fd. split; [apply co_put_same|].
    assert (O : open_meds (co_names cols fd) = Err FitsError).
    { unfold open_meds. rewrite no_object_data by exact C. reflexivity. }
    split; [exact O|]. unfold validate_meds. rewrite O. reflexivity.
Qed.

(** * Writing again *)
Section Again.
  Variable cs : Z -> Z -> res (option cobs * Z * Z).

  (** Writing object [j] does not tell the rows apart. *)
  Definition rel (j : Z) (r r' : crow) : Prop :=
    o_box (cr_obj r') = o_box (cr_obj r) /\
    forall p x fl q, cs p j = Ok (x, fl, q) ->
      match x with
      | None => failed_row r' fl = failed_row r fl
      | Some co => forall a b, filled_row r' co fl a b = filled_row r co fl a b
      end.

  Lemma rel_refl j r : rel j r r.
  Proof. split; [reflexivity|]. intros p x fl q _. destruct x; reflexivity. Qed.
  Lemma rel_trans j a b c : rel j a b -> rel j b c -> rel j a c.
  Proof.
    intros [B1 H1] [B2 H2]. split; [congruence|]. intros p x fl q E. specialize (H1 _ _ _ _ E). specialize (H2 _ _ _ _ E).
    destruct x; [|congruence]. intros. rewrite H2. apply H1.
  Qed.

  Definition rows_rel (js : list Z) (rows rows' : list crow) : Prop :=
    length rows = length rows' /\
    forall j r, zget rows j = Some r -> exists r', zget rows' j = Some r' /\ (r' = r \/ (In j js /\ rel j r r')).

  (** ** Two folds over related rows *)
  Definition same_but_rows (s s' : wstate) : Prop :=
    ws_ext s = ws_ext s' /\ ws_psf s = ws_psf s' /\ ws_row_start s = ws_row_start s' /\ ws_size s = ws_size s' /\
    ws_psf_row_start s = ws_psf_row_start s' /\ ws_psf_size s = ws_psf_size s'.

  Lemma zget_upd (rows : list crow) j k r r0 : zget rows j = Some r0 ->
    zget (upd rows (Z.to_nat j) r) k = if k =? j then Some r else zget rows k.
  Proof.
    intros J. pose proof (zget_Some_range _ _ _ J) as R. unfold zget in *. destruct (k <? 0) eqn:K.
    - destruct (k =? j) eqn:E; [lia|reflexivity].
    - rewrite nth_error_upd. destruct (k =? j) eqn:E.
      + replace k with j by lia. rewrite Nat.eqb_refl. unfold zlen in R. destruct (Z.to_nat j <? length rows)%nat eqn:L; [reflexivity|lia].
      + destruct (Z.to_nat j =? Z.to_nat k)%nat eqn:L; [lia|reflexivity].
  Qed.
  Lemma upd_length {A} (l : list A) n x : length (upd l n x) = length l.
  Proof. revert n. induction l as [|a l IH]; intros [|n]; cbn; auto. Qed.

  Lemma rows_none js a b j : rows_rel js a b -> zget a j = None -> zget b j = None.
  Proof.
    intros [L _] N. destruct (zget b j) as [r|] eqn:E; [|reflexivity]. pose proof (zget_Some_range _ _ _ E) as R.
    destruct (zget_range_Some a j) as (x & X); [unfold zlen in *; lia|congruence].
  Qed.

  Lemma upd_related js j a b r ra : ~ In j js -> rows_rel (j :: js) a b -> zget a j = Some ra ->
    rows_rel js (upd a (Z.to_nat j) r) (upd b (Z.to_nat j) r).
  Proof.
    intros N [L H] A. destruct (H _ _ A) as (rb & B & _). split; [rewrite !upd_length; exact L|].
    intros k x X. rewrite (zget_upd _ _ _ _ _ A) in X. rewrite (zget_upd _ _ _ _ _ B).
    destruct (k =? j) eqn:E; [exists r; split; [reflexivity|left; congruence]|].
    destruct (H _ _ X) as (x' & X' & D). exists x'. split; [exact X'|]. destruct D as [D|[[D|D] R]]; [left; exact D| |right; split; assumption].
    exfalso. lia.
  Qed.

  Lemma fold_same types : forall js s s' p, NoDup js -> same_but_rows s s' -> rows_rel js (ws_rows s) (ws_rows s') ->
    foldM (write_object_cutouts_r types cs) js (s, p) = foldM (write_object_cutouts_r types cs) js (s', p).
  Proof.
    induction js as [|j js IH]; intros s s' p N S R.
    - assert (E : s = s').
      { destruct S as (E1 & E2 & E3 & E4 & E5 & E6). destruct s, s'. cbn in *. f_equal; try assumption.
        pose proof R as [LR _]. apply list_zget_ext; [unfold zlen; rewrite LR; reflexivity|]. intros k _. destruct (zget ws_rows k) as [r|] eqn:K.
        - destruct R as [_ R]. destruct (R _ _ K) as (r' & K' & [D|[[] _]]). congruence.
        - symmetry. exact (rows_none _ _ _ _ R K). }
      rewrite E. reflexivity.
    - inversion N as [|? ? N1 N2]; subst. cbn [foldM]. unfold write_object_cutouts_r at 1 3. cbn [fst snd].
      destruct (cs p j) as [[[x fl] q]|e] eqn:C; cbn [bind]; [|reflexivity].
      unfold write_object_cutouts. cbn [bind fst snd].
      destruct (zget (ws_rows s) j) as [r|] eqn:J; cbn [bind].
      2:{ rewrite (rows_none _ _ _ _ R J). reflexivity. }
      pose proof R as [_ R']. destruct (R' _ _ J) as (r' & J' & D). rewrite J'. cbn [bind].
      assert (RR : rel j r r').
      { destruct D as [->|[_ D]]; [apply rel_refl|exact D]. }
      destruct RR as [RB RR]. specialize (RR _ _ _ _ C). destruct S as (E1 & E2 & E3 & E4 & E5 & E6).
      destruct x as [co|].
      + rewrite RB. destruct (negb _); [reflexivity|]. rewrite RR, <- E1, <- E2, <- E3, <- E4, <- E5, <- E6. cbv zeta.
        destruct (filled_row _ _ _ _ _) as [rn|e]; cbn [bind]; [|reflexivity].
        destruct (foldM (write_type _ _) _ _) as [ext|e]; cbn [bind]; [|reflexivity].
        destruct (write_at _ _ _) as [psf|e]; cbn [bind]; [|reflexivity].
        apply IH; [exact N2|repeat split|]. cbn [ws_rows]. apply (upd_related _ _ _ _ _ r); assumption.
      + rewrite RR. cbn [bind]. apply IH; [exact N2|repeat split; assumption|]. cbn [ws_rows]. apply (upd_related _ _ _ _ _ r); assumption.
  Qed.

  (** ** What a run leaves *)
  Hypothesis ST : steady cs.
  Variable broken : Z -> Z -> option err.

  Lemma rel_failed j r fl : rel j r (failed_row r fl).
  Proof. split; [reflexivity|]. intros p x fl' q _. destruct x; reflexivity. Qed.
  Lemma rel_ncoadd j r fl co n p q : 0 <= j -> cs p j = Ok (Some co, fl, q) -> rel j r (set_ncoadd (failed_row r fl) n).
  Proof.
    intros Z0 C. split; [reflexivity|]. intros p' x fl' q' C'. destruct x; [reflexivity|].
    destruct (ST _ _ _ _ _ _ _ _ _ Z0 C C').
  Qed.
  Lemma set_prefix_again l v w l' : length v = length w -> set_prefix l v = Ok l' -> set_prefix l' w = set_prefix l w.
  Proof.
    unfold set_prefix, zlen. intros L H. destruct (Z.of_nat (length v) <=? Z.of_nat (length l)) eqn:E; [|discriminate]. injection H as <-.
    rewrite app_length, skipn_length. replace (length v + (length l - length v))%nat with (length l) by lia. rewrite <- L, E. f_equal. f_equal.
    rewrite skipn_app, skipn_all, Nat.sub_diag. reflexivity.
  Qed.
  Lemma rel_filled j r fl co a b r' p q : 0 <= j -> cs p j = Ok (Some co, fl, q) -> filled_row r co fl a b = Ok r' ->
    rel j r r' /\ forall n, rel j r (set_row_ncut r' n).
  Proof.
    intros Z0 C H. unfold filled_row in H. apply bind_ok in H. destruct H as (w & W & H).
    destruct (o_slots (cr_obj r)) as [|s rest] eqn:O; [discriminate|]. injection H as <-.
    assert (K : forall x fl' p' q', cs p' j = Ok (Some x, fl', q') -> set_prefix w (co_imflags x) = set_prefix (cr_orig_flags r) (co_imflags x)).
    { intros. apply (set_prefix_again _ (co_imflags co)); [exact (ST _ _ _ _ _ _ _ _ _ Z0 C H)|exact W]. }
    split; [|intros n]; (split; [reflexivity|]); intros p' x fl' q' C';
      (destruct x as [x|]; [|destruct (ST _ _ _ _ _ _ _ _ _ Z0 C C')]); intros a' b'; unfold filled_row;
      cbn [cr_orig_flags cr_obj set_row_ncut set_ncut o_slots cr_orig_ncutout o_id o_number o_box o_ra o_dec o_color o_wcs_color o_psf_color o_psf_nr o_psf_nc];
      rewrite (K _ _ _ _ C'), O; reflexivity.
  Qed.

  Lemma upd_rel js j rows0 rows r r' : In j js -> rows_rel js rows0 rows -> zget rows j = Some r -> rel j r r' ->
    rows_rel js rows0 (upd rows (Z.to_nat j) r').
  Proof.
    intros I [L H] J RR. split; [rewrite upd_length; exact L|]. intros k x X. rewrite (zget_upd _ _ _ _ _ J).
    destruct (H _ _ X) as (x' & X' & D). destruct (k =? j) eqn:E; [|exists x'; split; assumption].
    replace k with j in * by lia. exists r'. split; [reflexivity|]. right. split; [exact I|]. replace r with x' in RR by congruence.
    destruct D as [->|[_ D]]; [exact RR|exact (rel_trans _ _ _ _ D RR)].
  Qed.

  Lemma loop_inv {S X} (P : S -> Prop) (body : S -> X -> run S) (all : list X) :
    (forall s x, In x all -> P s -> P (fst (body s x))) -> forall xs s, incl xs all -> P s -> P (fst (loop body xs s)).
  Proof.
    intros H. induction xs as [|x xs IH]; intros s I Ps; [exact Ps|]. cbn [loop].
    pose proof (H s x (I _ (or_introl eq_refl)) Ps) as Q. destruct (body s x) as [s' [e|]]; [exact Q|].
    apply IH; [intros y Y; apply I; right; exact Y|exact Q].
  Qed.

  Lemma run_rel types left js st rows0 : rows_rel js rows0 (ws_rows (fst st)) ->
    rows_rel js rows0 (ws_rows (fst (fst (objects_on_disk types (breaking broken cs) left js st)))).
  Proof.
    intros R. unfold objects_on_disk.
    apply (loop_inv (fun st => rows_rel js rows0 (ws_rows (fst st))) _ js); [|intros x X; exact X|exact R].
    clear st R. intros [st p] j I R. cbn [fst snd] in R |- *. unfold breaking.
    destruct (broken p j) as [e|]; [exact R|]. destruct (cs p j) as [[[x fl] q]|e] eqn:C; [|exact R]. cbn [fst].
    unfold object_on_disk. destruct (zget (ws_rows st) j) as [r|] eqn:J; [|exact R].
    assert (Z0 : 0 <= j) by (pose proof (zget_Some_range _ _ _ J); lia).
    destruct x as [co|].
    - destruct (negb _); [exact (upd_rel _ _ _ _ _ _ I R J (rel_failed _ _ _))|]. cbv zeta.
      destruct (filled_row _ _ _ _ _) as [r'|e] eqn:F; [|exact (upd_rel _ _ _ _ _ _ I R J (rel_ncoadd _ _ _ _ _ _ _ Z0 C))].
      destruct (rel_filled _ _ _ _ _ _ _ _ _ Z0 C F) as [R1 R2].
      destruct (planes_on_disk _ _ _ _) as [ext [e|]]; [exact (upd_rel _ _ _ _ _ _ I R J (R2 _))|].
      destruct (write_at _ _ _) as [psf|e]; [exact (upd_rel _ _ _ _ _ _ I R J R1)|exact (upd_rel _ _ _ _ _ _ I R J (R2 _))].
    - exact (upd_rel _ _ _ _ _ _ I R J (rel_failed _ _ _)).
  Qed.

  Lemma again f ct tp left junk pjunk mk rg path d mk' d' e junk' pjunk' p :
    coadd_write_on_disk f ct tp (breaking broken cs) left junk pjunk mk rg path d = ((mk', d'), e) ->
    coadd_write f ct tp cs junk' pjunk' (mkCmaker (cm_rows mk') p) rg =
    coadd_write f ct tp cs junk' pjunk' (mkCmaker (cm_rows mk) p) rg.
  Proof.
    unfold coadd_write_on_disk, coadd_write. cbv zeta. cbn [cm_rows cm_pos].
    destruct (match rg with Some r => r | None => _ end) as [a b] eqn:RG. intros H.
    match type of H with context [objects_on_disk ?t ?c ?l ?js ?s] => pose proof (run_rel t l js s (cm_rows mk)) as P end.
    cbn [fst ws_rows] in P. assert (P0 : rows_rel (zrange2 a b) (cm_rows mk) (cm_rows mk)).
    { split; [reflexivity|]. intros j r J. exists r. split; [exact J|left; reflexivity]. }
    specialize (P P0). destruct (objects_on_disk _ _ _ _ _) as [st e']. cbn [fst] in P.
    assert (E : cm_rows mk' = ws_rows (fst st)) by (destruct e'; injection H as <- _ _; reflexivity). rewrite E.
    f_equal. symmetry. apply fold_same; [apply zrange2_NoDup|repeat split|exact P].
  Qed.
End Again.

(** * The coadder of the package *)
Lemma coadd_obs_range c o g err f jm p j x : 0 <= j -> get_coadd_obs_r c o g err f jm p j = Ok x -> exists ob, zget (m_cat f) j = Some ob.
Proof.
  intros Z0 H. unfold get_coadd_obs_r in H. apply bind_ok in H. destruct H as (l & H & _). unfold get_obslist_r in H.
  apply bind_ok in H. destruct H as (ims & H & _). unfold get_cutout_list in H. apply bind_ok in H. destruct H as (m & H & _).
  unfold get_mosaic in H. apply bind_ok in H. destruct H as (ob & H & _). unfold check_indices in H.
  destruct (zlen (m_cat f) <=? j) eqn:L; [discriminate|]. apply zget_range_Some. lia.
Qed.

Lemma coadder_steady c o g err f jm : interp_total o -> reject_keeps_shapes o -> noise_apart o ->
  steady (get_coadd_obs_r c o g err f jm).
Proof.
  intros T K N p p' j x fl q x' fl' q' Z0 H H'. destruct (coadd_obs_range _ _ _ _ _ _ _ _ _ Z0 H) as (ob & O).
  destruct (coadd_obs_r_two c o g err g err f jm p p' j ob x fl q T K N O H) as (r & R & B). rewrite R in H'. injection H' as <- _ _.
  unfold but_noise in B. destruct x, r; try exact B. destruct B as (_ & _ & _ & _ & _ & _ & _ & _ & _ & _ & ->). reflexivity.
Qed.

(** * Where the generator stands *)
Lemma zrange2_cons a b : a < b -> zrange2 a b = a :: zrange2 (a + 1) b.
Proof.
  intros L. unfold zrange2, zrange. replace (Z.to_nat (b - a)) with (S (Z.to_nat (b - (a + 1)))) by lia.
  cbn [seq map]. f_equal; [lia|]. rewrite <- seq_shift, !map_map. apply map_ext. intros k. lia.
Qed.

Lemma objects_generator types cs left b n a s p : Z.of_nat n = b - a ->
  match objects_on_disk types cs left (zrange2 a b) (s, p) with
  | ((_, q), None) => moves cs a b p q
  | ((_, q), Some e) => exists j p', a <= j < b /\ moves cs a j p p' /\
      match cs p' j with Err e' => e' = e /\ q = left p' j | Ok (_, _, q') => q = q' end
  end.
Proof.
  revert a s p. induction n as [|n IH]; intros a s p E.
  - assert (a = b) by lia. subst b. unfold zrange2. rewrite Z.sub_diag. cbn. apply moves_none.
  - rewrite zrange2_cons by lia. unfold objects_on_disk. cbn [loop fst snd].
    destruct (cs p a) as [[[x fl] q]|e] eqn:C; cbn [fst snd].
    + destruct (object_on_disk types (x, fl) s a) as [s' [e|]] eqn:D.
      * exists a, p. split; [lia|]. split; [apply moves_none|]. rewrite C. reflexivity.
      * specialize (IH (a + 1) s' q ltac:(lia)). unfold objects_on_disk in IH.
        destruct (loop _ _ _) as [[s2 q2] [e|]].
        -- destruct IH as (j & p' & J & M & H). exists j, p'. split; [lia|]. split; [|exact H]. eapply moves_one; eassumption.
        -- eapply moves_one; eassumption.
    + exists a, p. split; [lia|]. split; [apply moves_none|]. rewrite C. split; reflexivity.
Qed.

Lemma generator f ct tp cs left junk pjunk mk a b path d mk' d' e : a <= b ->
  coadd_write_on_disk f ct tp cs left junk pjunk mk (Some (a, b)) path d = ((mk', d'), e) ->
  match e with
  | None => moves cs a b (cm_pos mk) (cm_pos mk')
  | Some e => exists j p, a <= j < b /\ moves cs a j (cm_pos mk) p /\
      match cs p j with Err e' => e' = e /\ cm_pos mk' = left p j | Ok (_, _, q) => cm_pos mk' = q end
  end.
Proof.
  intros L H. unfold coadd_write_on_disk in H. cbv zeta in H.
  match type of H with context [objects_on_disk ?t ?c ?l (zrange2 ?x ?y) (?s, ?p)] =>
    pose proof (objects_generator t c l y (Z.to_nat (y - x)) x s p ltac:(lia)) as P;
    destruct (objects_on_disk t c l (zrange2 x y) (s, p)) as [[st q] [e'|]] end;
  injection H as <- _ <-; exact P.
Qed.
