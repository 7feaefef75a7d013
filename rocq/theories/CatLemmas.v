(** Proofs about the columns of the catalog. *)
From Coq Require Import String Lia ZifyBool.
From Verif Require Import Base BaseLemmas Types Meta CatCols SpecCat MetaLemmas.
Open Scope Z_scope.

Section Cat.
Context {A : Type}.
Implicit Types (t d : ctable A) (c : col A).

Lemma cnames_descr t : cnames t = map fst (cdescr t).
Proof. unfold cnames, cdescr. rewrite map_map. reflexivity. Qed.

Lemma in_descr t c : In c t -> In (c_name c, c_width c) (cdescr t).
Proof. intros H. unfold cdescr. apply (in_map (fun c => (c_name c, c_width c)) t c H). Qed.

Lemma descr_unique (l : list descr) n w w' : NoDup (map fst l) -> In (n, w) l -> In (n, w') l -> w = w'.
Proof.
  induction l as [|[m v] l IH]; cbn; intros N H H'; [tauto|]. inversion N as [|? ? N1 N2]; subst.
  assert (K : forall u, In (n, u) l -> m = n -> False).
  { intros u I E. subst. apply N1. apply (in_map fst l (n, u) I). }
  destruct H as [H|H], H' as [H'|H'].
  - congruence.
  - exfalso. inversion H; subst. eapply K; eauto.
  - exfalso. inversion H'; subst. eapply K; eauto.
  - auto.
Qed.

Lemma assign_same n w (rows : list (list A)) : assign n w w rows = Ok rows.
Proof. destruct w; cbn; [rewrite Z.eqb_refl|]; reflexivity. Qed.

Lemma col_eta c : mkCol (c_name c) (c_width c) (c_rows c) = c.
Proof. destruct c; reflexivity. Qed.

Lemma put_col_ok n t s : (forall c, In c t -> c_name c = c_name s -> c_width c = c_width s) ->
  exists t', put_col n t s = Ok t' /\ cdescr t' = cdescr t /\
    (forall c, In c t -> c_name c <> c_name s -> In c t') /\
    (In (c_name s) (cnames t) -> In s t') /\ (forall c, In c t' -> In c t \/ c = s).
Proof.
  induction t as [|c t IH]; intros W; cbn.
  - exists []. split; [reflexivity|]. split; [reflexivity|]. split; [auto|]. split; [intros []|intros c []].
  - destruct (String.eqb_spec (c_name c) (c_name s)) as [E|E].
    + rewrite (W c (or_introl eq_refl) E), assign_same. cbn [bind].
      eexists. split; [reflexivity|]. rewrite E, col_eta. split; [unfold cdescr; cbn [map]; reflexivity|].
      split; [|split].
      * intros c' [<-|H] D; [congruence|right; exact H].
      * intros _. left. reflexivity.
      * intros c' [<-|H]; [right; reflexivity|left; right; exact H].
    + destruct IH as (t' & E1 & E2 & E3 & E4 & E5). { intros c' H. apply W. right. exact H. }
      rewrite E1. cbn [bind]. eexists. split; [reflexivity|]. split; [unfold cdescr in *; cbn [map]; rewrite E2; reflexivity|]. split; [|split].
      * intros c' [<-|H] D; [left; reflexivity|right; apply E3; assumption].
      * intros [H|H]; [congruence|right; apply E4; exact H].
      * intros c' [<-|H]; [left; left; reflexivity|]. destruct (E5 c' H); [left; right; assumption|right; assumption].
Qed.

Lemma copy_fields_ok n (src dst : ctable A) : NoDup (cnames src) ->
  (forall s c, In s src -> In c dst -> c_name c = c_name s -> c_width c = c_width s) ->
  exists d, copy_fields n src dst = Ok d /\ cdescr d = cdescr dst /\
    (forall s, In s src -> In (c_name s) (cnames dst) -> In s d) /\
    (forall c, In c dst -> ~ In (c_name c) (cnames src) -> In c d) /\
    (forall c, In c d -> In c dst \/ In c src).
Proof.
  unfold copy_fields. revert dst. induction src as [|s src IH]; intros dst N W; cbn [foldM].
  - exists dst. split; [reflexivity|]. split; [reflexivity|]. split; [intros s []|]. split; [auto|left; assumption].
  - inversion N as [|? ? N1 N2]; subst.
    destruct (put_col_ok n dst s) as (d1 & E1 & D1 & O1 & S1 & B1). { intros c H. apply W; [left; reflexivity|exact H]. }
    rewrite E1. cbn [bind].
    assert (NM : cnames d1 = cnames dst) by (rewrite !cnames_descr, D1; reflexivity).
    destruct (IH d1 N2) as (d & E & D & S & O & B).
    { intros s' c H H' Q. destruct (B1 c H') as [K| ->].
      - apply W; [right; exact H|exact K|exact Q].
      - exfalso. apply N1. rewrite Q. apply (in_map c_name src s' H). }
    exists d. split; [exact E|]. split; [congruence|]. split; [|split].
    + intros s' [<-|H] K.
      * apply O; [apply S1; exact K|exact N1].
      * apply S; [exact H|]. rewrite NM. exact K.
    + intros c H K. apply O.
      * apply O1; [exact H|]. intros Q. apply K. left. symmetry. exact Q.
      * intros Q. apply K. right. exact Q.
    + intros c H. destruct (B c H) as [K|K]; [|right; right; exact K].
      destruct (B1 c K) as [K'| ->]; [left; exact K'|right; left; reflexivity].
Qed.

(** * The names of the maker *)
Lemma output_fst nmax extra : map fst (output_dtype nmax extra) = output_names (map fst extra).
Proof. unfold output_dtype. rewrite !map_app, !map_map. cbn [fst]. rewrite !map_id. reflexivity. Qed.

Lemma output_nodup : NoDup (output_names []).
Proof. apply nodup_names_iff. vm_compute. reflexivity. Qed.

Lemma psf_fst nmax : map fst (psf_dtype nmax) = psf_columns.
Proof. reflexivity. Qed.

Lemma output_list : output_names [] = must_have ++ "ncutout"%string :: cutout_columns.
Proof. reflexivity. Qed.

Lemma output_app e : output_names e = output_names [] ++ e.
Proof. unfold output_names. rewrite app_nil_r. reflexivity. Qed.

Definition is_extra (d : descr) : bool :=
  negb (mem_str (fst d) (output_names [])) && negb (mem_str (fst d) psf_columns).

Lemma extra_fields_eq psf t nmax : get_extra_fields psf t nmax = filter is_extra (cdescr t) ++ if psf then psf_dtype nmax else [].
Proof. reflexivity. Qed.

Lemma is_extra_iff (d : descr) : is_extra d = true <-> ~ In (fst d) (output_names []) /\ ~ In (fst d) psf_columns.
Proof.
  unfold is_extra. rewrite andb_true_iff, !negb_true_iff, !mem_str_false. tauto.
Qed.

Lemma nodup_filter_fst (p : descr -> bool) l : NoDup (map fst l) -> NoDup (map fst (filter p l)).
Proof.
  induction l as [|d l IH]; cbn; intros N; [constructor|]. inversion N as [|? ? N1 N2]; subst.
  destruct (p d); [|auto]. cbn. constructor; [|auto]. intros H. apply N1.
  apply in_map_iff in H. destruct H as (e & E & H). apply filter_In in H. rewrite <- E. apply in_map. tauto.
Qed.

Lemma nodup_app_intro (l l' : list string) : NoDup l -> NoDup l' -> (forall x, In x l -> ~ In x l') -> NoDup (l ++ l').
Proof.
  induction l as [|x l IH]; cbn; intros N N' D; [exact N'|]. inversion N; subst. constructor.
  - intros H. apply in_app_or in H. destruct H as [H|H]; [contradiction|]. exact (D x (or_introl eq_refl) H).
  - apply IH; auto.
Qed.

Lemma full_names_nodup (l : list descr) (psf : bool) nmax nmax' : NoDup (map fst l) ->
  NoDup (map fst (output_dtype nmax (filter is_extra l ++ if psf then psf_dtype nmax' else []))).
Proof.
  intros N. rewrite output_fst, output_app, map_app. apply nodup_app_intro; [exact output_nodup| |].
  - apply nodup_app_intro; [apply nodup_filter_fst; exact N| |].
    + destruct psf; [|constructor]. rewrite psf_fst. apply nodup_names_iff. vm_compute. reflexivity.
    + intros x H H'. apply in_map_iff in H. destruct H as (e & <- & H). apply filter_In in H.
      destruct H as [_ H]. apply is_extra_iff in H. destruct psf; [|exact H']. rewrite psf_fst in H'. tauto.
  - intros x H H'. apply in_app_or in H'. destruct H' as [H'|H'].
    + apply in_map_iff in H'. destruct H' as (e & <- & H'). apply filter_In in H'. destruct H' as [_ H'].
      apply is_extra_iff in H'. tauto.
    + destruct psf; [|exact H']. rewrite psf_fst in H'.
      assert (K : forallb (fun n => negb (mem_str n (output_names []))) psf_columns = true) by (vm_compute; reflexivity).
      rewrite forallb_forall in K. specialize (K x H'). apply negb_true_iff, mem_str_false in K. contradiction.
Qed.

Lemma struct_ok (zero defval : A) nobj nmax extra : NoDup (map fst (output_dtype nmax extra)) -> 0 <= nobj ->
  exists d, get_meds_output_struct zero defval nobj nmax extra = Ok d /\ cdescr d = output_dtype nmax extra /\
    forall c, In c d -> zlen (c_rows c) = nobj.
Proof.
  intros N P. unfold get_meds_output_struct. rewrite (proj2 (nodup_names_iff _) N). eexists. split; [reflexivity|]. split.
  - unfold cdescr. rewrite map_map. cbn [c_name c_width]. erewrite map_ext; [apply map_id|]. intros [? ?]; reflexivity.
  - intros c H. apply in_map_iff in H. destruct H as (e & <- & _). cbn [c_rows]. unfold zlen. rewrite repeat_length. lia.
Qed.

(** Membership in the full dtype. *)
Lemma in_output_dtype nmax extra n w : In (n, w) (output_dtype nmax extra) <->
  (In n (firstn 5 (output_names [])) /\ w = None) \/ (In n (skipn 5 (output_names [])) /\ w = Some nmax) \/ In (n, w) extra.
Proof.
  unfold output_dtype. rewrite !in_app_iff, !in_map_iff. split.
  - intros [(x & E & H)|[(x & E & H)|H]]; [inversion E; subst; tauto|inversion E; subst; tauto|tauto].
  - intros [[H ->]|[[H ->]|H]]; [left; eauto|right; left; eauto|tauto].
Qed.

Lemma first5 : firstn 5 (output_names []) = must_have ++ ["ncutout"%string].
Proof. reflexivity. Qed.
Lemma skip5 : skipn 5 (output_names []) = cutout_columns.
Proof. reflexivity. Qed.

Definition good_input (n : Z) t : Prop := table_ok n t /\ (forall m, In m must_have -> scalar t m) /\
  forall c, In c t -> ~ In (c_name c) computed_columns.

Lemma good_extra n t c : good_input n t -> In c t ->
  (In (c_name c) must_have /\ c_width c = None) \/ (is_extra (c_name c, c_width c) = true).
Proof.
  intros (T & S & K) H. destruct (in_dec String.string_dec (c_name c) must_have) as [I|I].
  - left. split; [exact I|]. destruct (S _ I) as (c' & H' & E & W). rewrite <- W.
    destruct T as (_ & N & _). rewrite cnames_descr in N.
    eapply descr_unique; [exact N|apply in_descr; exact H|]. rewrite <- E. apply in_descr. exact H'.
  - right. apply is_extra_iff. cbn [fst]. specialize (K c H). unfold computed_columns in K.
    rewrite output_list. split; intros Q.
    + apply in_app_or in Q. destruct Q as [Q|[Q|Q]]; [contradiction|apply K; left; exact Q|]. apply K. right. apply in_or_app. left. exact Q.
    + apply K. right. apply in_or_app. right. exact Q.
Qed.

Lemma must_first5 m : In m must_have -> In m (firstn 5 (output_names [])).
Proof. rewrite first5. intros H. apply in_or_app. left. exact H. Qed.

Lemma set_obj_data_ok (zero defval : A) (psf : bool) nmax0 n t : good_input n t ->
  let nmax := if nmax0 <? 2 then 2 else nmax0 in
  exists d, set_obj_data zero defval psf nmax0 n t = Ok d /\
    cdescr d = output_dtype nmax (filter is_extra (cdescr t) ++ if psf then psf_dtype nmax else []) /\
    (forall c, In c t -> In c d) /\ (forall c, In c d -> zlen (c_rows c) = n).
Proof.
  intros G nmax. pose proof G as (T & S & K). destruct T as (P & N & R).
  unfold set_obj_data, check_required.
  assert (E : filter (fun m => negb (mem_str m (cnames t))) input_names = []).
  { assert (Q : forall m, In m must_have -> mem_str m (cnames t) = true).
    { intros m H. apply mem_str_In. destruct (S m H) as (c & H1 & <- & _). apply in_map. exact H1. }
    change input_names with must_have.
    cbn [must_have filter]. rewrite !Q by (cbn; tauto). reflexivity. }
  rewrite E. cbn [bind]. unfold get_full_obj_data. fold nmax. rewrite extra_fields_eq.
  assert (NN : NoDup (map fst (cdescr t))) by (rewrite <- cnames_descr; exact N).
  pose proof (full_names_nodup (cdescr t) psf nmax nmax NN) as NF.
  destruct (struct_ok zero defval n nmax _ NF P) as (d0 & E0 & D0 & R0). rewrite E0. cbn [bind].
  assert (NM : forall c, In c t -> In (c_name c, c_width c) (cdescr d0)).
  { intros c H. rewrite D0. apply in_output_dtype. destruct (good_extra n t c G H) as [[H1 ->]|H1].
    - left. split; [apply must_first5; exact H1|reflexivity].
    - right. right. apply in_or_app. left. apply filter_In. split; [apply in_descr; exact H|exact H1]. }
  destruct (copy_fields_ok n t d0 N) as (d & E1 & D & C1 & C2 & C3).
  { intros s c H H' Q. rewrite <- D0 in NF. eapply descr_unique; [exact NF|apply in_descr; exact H'|].
    rewrite Q. apply NM. exact H. }
  exists d. split; [exact E1|]. split; [congruence|]. split.
  - intros c H. apply C1; [exact H|]. rewrite cnames_descr. apply (in_map fst _ _ (NM c H)).
  - intros c H. destruct (C3 c H) as [H'|H']; [apply R0; exact H'|apply R; exact H'].
Qed.

Lemma take_rows_ok d idx n : (forall c, In c d -> zlen (c_rows c) = n) -> (forall i, In i idx -> 0 <= i < n) ->
  exists d', take_rows d idx = Ok d' /\ cdescr d' = cdescr d /\
    (forall c, In c d -> exists c', In c' d' /\ same_column idx c c').
Proof.
  intros R I. unfold take_rows. induction d as [|c d IH]; cbn [mapM].
  - exists []. split; [reflexivity|]. split; [reflexivity|]. intros c [].
  - destruct IH as (d' & E & D & S). { intros c' H. apply R. right. exact H. }
    assert (M : exists rows, mapM (fun i => match zget (c_rows c) i with Some r => Ok r | None => Err IndexError end) idx = Ok rows).
    { assert (I' : forall i, In i idx -> 0 <= i < zlen (c_rows c)) by (intros i H; rewrite (R c (or_introl eq_refl)); auto).
      clear -I'. induction idx as [|i idx IH]; cbn [mapM]; [eauto|].
      destruct (zget_range_Some (c_rows c) i (I' i (or_introl eq_refl))) as (r & ->). cbn [bind].
      destruct IH as (rows & ->); [intros j H; apply I'; right; exact H|]. cbn [bind]. eauto. }
    destruct M as (rows & M). rewrite M. cbn [bind]. rewrite E. cbn [bind].
    eexists. split; [reflexivity|]. split; [unfold cdescr in *; cbn [map]; rewrite D; reflexivity|].
    intros c' [<-|H].
    + eexists. split; [left; reflexivity|]. repeat split; cbn.
      * unfold zlen. f_equal. eapply mapM_ok_length. exact M.
      * intros k i H. pose proof (zget_Some_range _ _ _ H) as B.
        assert (Hn : nth_error idx (Z.to_nat k) = Some i).
        { rewrite <- zget_nat, Z2Nat.id by lia. exact H. }
        destruct (mapM_ok_nth _ _ _ _ _ M Hn) as (r & Er & Hr). rewrite <- zget_nat, Z2Nat.id in Hr by lia. rewrite Hr.
        destruct (zget (c_rows c) i) as [r'|]; [congruence|discriminate].
    + destruct (S c' H) as (c'' & H1 & H2). exists c''. split; [right; exact H1|exact H2].
Qed.

Lemma layout_cols_descr fill d : cdescr (layout_cols fill d) = cdescr d.
Proof.
  unfold cdescr, layout_cols. rewrite map_map. apply map_ext. intros c. destruct (mem_str _ _); reflexivity.
Qed.

Lemma layout_cols_in fill d c : In c d -> ~ In (c_name c) LAYOUT_COLUMNS -> In c (layout_cols fill d).
Proof.
  intros H N. unfold layout_cols. apply in_map_iff. exists c. split; [|exact H].
  rewrite (proj2 (mem_str_false _ _) N). reflexivity.
Qed.

Lemma find_col_in d c : NoDup (cnames d) -> In c d -> find_col d (c_name c) = Some c.
Proof.
  induction d as [|c' d IH]; cbn; intros N H; [tauto|]. inversion N as [|? ? N1 N2]; subst.
  destruct H as [->|H]; [rewrite String.eqb_refl; reflexivity|].
  destruct (String.eqb_spec (c_name c') (c_name c)) as [E|E]; [|apply IH; assumption].
  exfalso. apply N1. rewrite E. apply in_map. exact H.
Qed.

Lemma in_cnames d n w : In (n, w) (cdescr d) -> exists c, In c d /\ c_name c = n /\ c_width c = w.
Proof. unfold cdescr. intros H. apply in_map_iff in H. destruct H as (c & E & H). inversion E; subst. eauto. Qed.

Lemma filter_extra_output (l : list descr) (psf : bool) nmax nmax' :
  filter is_extra (output_dtype nmax (filter is_extra l ++ if psf then psf_dtype nmax' else [])) = filter is_extra l.
Proof.
  unfold output_dtype. rewrite !filter_app.
  assert (F : forall (m : list descr), (forall d : descr, In d m -> is_extra d = false) -> filter is_extra m = []).
  { induction m as [|d m IH]; intros H; cbn; [reflexivity|]. rewrite (H d (or_introl eq_refl)). apply IH. intros e He. apply H. right. exact He. }
  rewrite (F (map _ (firstn 5 _))), (F (map _ (skipn 5 _))).
  - cbn [app]. replace (filter is_extra (if psf then psf_dtype nmax' else [])) with (@nil descr).
    + rewrite app_nil_r. clear F. induction l as [|d l IH]; cbn; [reflexivity|].
      destruct (is_extra d) eqn:E; cbn; [rewrite E, IH; reflexivity|exact IH].
    + symmetry. apply F. intros d H. destruct psf; [|destruct H]. destruct (is_extra d) eqn:E; [|reflexivity].
      apply is_extra_iff in E. exfalso. apply (proj2 E). rewrite <- (psf_fst nmax'). apply in_map. exact H.
  - intros d H. apply in_map_iff in H. destruct H as (x & <- & H). destruct (is_extra _) eqn:E; [|reflexivity].
    apply is_extra_iff in E. exfalso. apply (proj1 E). cbn [fst]. rewrite <- (firstn_skipn 5 (output_names [])). apply in_or_app. right. exact H.
  - intros d H. apply in_map_iff in H. destruct H as (x & <- & H). destruct (is_extra _) eqn:E; [|reflexivity].
    apply is_extra_iff in E. exfalso. apply (proj1 E). cbn [fst]. rewrite <- (firstn_skipn 5 (output_names [])). apply in_or_app. left. exact H.
Qed.

Lemma mapM_descr (f : col A -> res (col A)) d : (forall c, In c d -> exists c', f c = Ok c' /\ c_name c' = c_name c /\ c_width c' = c_width c) ->
  exists d', mapM f d = Ok d' /\ cdescr d' = cdescr d /\ forall c c', In c d -> f c = Ok c' -> In c' d'.
Proof.
  induction d as [|c d IH]; cbn [mapM]; intros H.
  - exists []. split; [reflexivity|]. split; [reflexivity|]. intros c c' [].
  - destruct (H c (or_introl eq_refl)) as (c' & E & E1 & E2). rewrite E. cbn [bind].
    destruct IH as (d' & Ed & D & S). { intros x Hx. apply H. right. exact Hx. }
    rewrite Ed. cbn [bind]. eexists. split; [reflexivity|]. split; [unfold cdescr in *; cbn [map]; rewrite E1, E2, D; reflexivity|].
    intros x x' [<-|Hx] Ex; [left; congruence|right; eapply S; eauto].
Qed.

Lemma resized_ok (zero defval : A) (psf : bool) n maxcut nmax (l : list descr) d : NoDup (map fst l) -> 0 <= n -> maxcut <= nmax -> 2 <= nmax ->
  cdescr d = output_dtype nmax (filter is_extra l ++ if psf then psf_dtype nmax else []) ->
  let new_nmax := if maxcut <? 2 then 2 else maxcut in
  exists d', make_resized_cols zero defval psf n maxcut d = Ok d' /\
    cdescr d' = output_dtype new_nmax (filter is_extra l ++ if psf then psf_dtype new_nmax else []) /\
    (forall c, In c d -> ~ In (c_name c) cutout_columns -> ~ In (c_name c) psf_columns -> In c d').
Proof.
  intros N P Hm H2 D new_nmax. unfold make_resized_cols. fold new_nmax. rewrite extra_fields_eq, D, filter_extra_output.
  pose proof (full_names_nodup l psf new_nmax new_nmax N) as NF.
  pose proof (full_names_nodup l psf nmax nmax N) as NO. rewrite <- D in NO.
  destruct (struct_ok zero defval n new_nmax _ NF P) as (d0 & E0 & D0 & R0). rewrite E0. cbn [bind].
  assert (Ln : new_nmax <= nmax) by (unfold new_nmax; destruct (maxcut <? 2); lia).
  assert (Src : forall c, In c d0 -> exists s, find_col d (c_name c) = Some s /\ In s d /\ c_name s = c_name c /\
    ((In (c_name c) (skipn 5 (output_names [])) \/ In (c_name c) psf_columns) /\ c_width c = Some new_nmax /\ c_width s = Some nmax \/
     ~ (In (c_name c) (skipn 5 (output_names [])) \/ In (c_name c) psf_columns) /\ c_width s = c_width c)).
  { intros c H. pose proof (in_descr d0 c H) as I. rewrite D0 in I. apply in_output_dtype in I.
    assert (K : forall w, In (c_name c, w) (cdescr d) -> exists s, find_col d (c_name c) = Some s /\ In s d /\ c_name s = c_name c /\ c_width s = w).
    { intros w Q. destruct (in_cnames d _ _ Q) as (s & Hs & E & W). exists s. split; [|tauto]. rewrite <- E. apply find_col_in; [|exact Hs].
      rewrite cnames_descr. exact NO. }
    destruct I as [[I W]|[[I W]|I]].
    - destruct (K None) as (s & K1 & K2 & K3 & K4). { rewrite D. apply in_output_dtype. tauto. }
      exists s. repeat (split; [assumption|]). right. split; [|congruence]. intros Q.
      assert (B : forallb (fun n => negb (mem_str n (skipn 5 (output_names []))) && negb (mem_str n psf_columns)) (firstn 5 (output_names [])) = true) by (vm_compute; reflexivity).
      rewrite forallb_forall in B. specialize (B _ I). apply andb_true_iff in B. rewrite !negb_true_iff, !mem_str_false in B. tauto.
    - destruct (K (Some nmax)) as (s & K1 & K2 & K3 & K4). { rewrite D. apply in_output_dtype. tauto. }
      exists s. repeat (split; [assumption|]). left. tauto.
    - apply in_app_or in I. destruct I as [I|I].
      + destruct (K (c_width c)) as (s & K1 & K2 & K3 & K4). { rewrite D. apply in_output_dtype. right. right. apply in_or_app. tauto. }
        exists s. repeat (split; [assumption|]). right. split; [|congruence]. apply filter_In in I. destruct I as [_ I].
        apply is_extra_iff in I. cbn [fst] in I. intros [Q|Q]; [|tauto]. apply (proj1 I).
        rewrite <- (firstn_skipn 5 (output_names [])). apply in_or_app. right. exact Q.
      + destruct psf; [|destruct I]. apply in_map_iff in I. destruct I as (m & E & I). inversion E as [[E1 E2]].
        destruct (K (Some nmax)) as (s & K1 & K2 & K3 & K4).
        { rewrite D. apply in_output_dtype. right. right. apply in_or_app. right. apply in_map_iff. exists m. split; [rewrite E1; reflexivity|exact I]. }
        exists s. repeat (split; [assumption|]). left. split; [right; rewrite <- E1; exact I|]. split; [first [reflexivity|symmetry; exact E2]|exact K4]. }
  assert (RC : forall c, In c d0 -> exists s c', find_col d (c_name c) = Some s /\ resize_col n new_nmax d c = Ok c' /\ c_name c' = c_name c /\ c_width c' = c_width c /\
     (~ In (c_name c) cutout_columns -> ~ In (c_name c) psf_columns -> c' = s)).
  { intros c H. destruct (Src c H) as (s & F & Hs & Es & C). exists s. unfold resize_col. rewrite F.
    destruct C as [(Q & W & Ws)|(Q & W)].
    - rewrite W, Ws.
      assert (B : (true && mem_str (c_name c) (output_names []) || mem_str (c_name c) (map fst (psf_dtype new_nmax)))%bool = true).
      { rewrite psf_fst. apply orb_true_iff. destruct Q as [Q|Q]; [left|right; apply mem_str_In; exact Q].
        apply andb_true_iff. split; [reflexivity|]. apply mem_str_In. rewrite <- (firstn_skipn 5 (output_names [])). apply in_or_app. right. exact Q. }
      rewrite B. replace (Z.min nmax new_nmax) with new_nmax by lia. rewrite assign_same. cbn [bind].
      eexists. split; [reflexivity|]. split; [reflexivity|]. split; [reflexivity|]. split; [cbn; congruence|].
      intros Q1 Q2. exfalso. rewrite skip5 in Q. tauto.
    - assert (B : ((match c_width c with Some _ => true | None => false end) && mem_str (c_name c) (output_names [])
                   || mem_str (c_name c) (map fst (psf_dtype new_nmax)))%bool = false).
      { rewrite psf_fst. apply orb_false_iff. split; [|apply mem_str_false; tauto].
        destruct (c_width c) as [w|] eqn:Wc; [|reflexivity]. cbn [andb]. apply mem_str_false. intros I.
        rewrite <- (firstn_skipn 5 (output_names [])) in I. apply in_app_or in I. destruct I as [I|I]; [|tauto].
        pose proof (in_descr d0 c H) as I0. rewrite D0 in I0.
        assert (I1 : In (c_name c, None) (output_dtype new_nmax (filter is_extra l ++ if psf then psf_dtype new_nmax else []))) by (apply in_output_dtype; tauto).
        pose proof (descr_unique _ _ _ _ NF I0 I1). congruence. }
      rewrite B, <- W, assign_same. cbn [bind]. eexists. split; [reflexivity|]. split; [reflexivity|]. split; [reflexivity|]. split; [cbn; congruence|].
      intros _ _. rewrite <- Es. apply col_eta. }
  destruct (mapM_descr (resize_col n new_nmax d) d0) as (d' & E & D' & S).
  { intros c H. destruct (RC c H) as (s & c' & _ & H1 & H3 & H4 & _). eauto. }
  exists d'. split; [exact E|]. split; [congruence|].
  intros c H Q1 Q2. pose proof (in_descr d c H) as I. rewrite D in I. apply in_output_dtype in I.
  assert (X : exists c0, In c0 d0 /\ c_name c0 = c_name c).
  { assert (Z : exists w, In (c_name c, w) (cdescr d0)).
    { rewrite D0. destruct I as [[I _]|[[I _]|I]].
      - exists None. apply in_output_dtype. tauto.
      - exists (Some new_nmax). apply in_output_dtype. tauto.
      - apply in_app_or in I. destruct I as [I|I].
        + exists (c_width c). apply in_output_dtype. right. right. apply in_or_app. tauto.
        + exfalso. destruct psf; [|destruct I]. apply Q2. rewrite <- (psf_fst nmax). apply (in_map fst _ _ I). }
    destruct Z as (w & Z). destruct (in_cnames d0 _ _ Z) as (c0 & H0 & E1 & _). eauto. }
  destruct X as (c0 & H0 & E1). destruct (RC c0 H0) as (s & c' & F & Ec & _ & _ & K).
  rewrite E1 in K, F. specialize (K Q1 Q2). subst c'.
  assert (s = c). { rewrite find_col_in in F; [congruence|rewrite cnames_descr; exact NO|exact H]. }
  subst s. eapply S; eauto.
Qed.

(** * The whole way of a column *)
Lemma written_ok (zero defval : A) (psf : bool) nmax0 n idx maxcut fill fill' t : good_input n t ->
  (forall i, In i idx -> 0 <= i < n) -> maxcut <= Z.max 2 nmax0 ->
  exists d, written_columns zero defval psf nmax0 n idx maxcut fill fill' t = Ok d /\
    cnames d = output_names (map c_name (filter (fun c => negb (mem_str (c_name c) must_have)) t) ++ if psf then psf_columns else []) /\
    forall c, In c t -> c_name c <> "box_size"%string -> exists c', In c' d /\ same_column idx c c'.
Proof.
  intros G I M. unfold written_columns.
  destruct (set_obj_data_ok zero defval psf nmax0 n t G) as (d1 & E1 & D1 & K1 & R1). rewrite E1. cbn [bind].
  destruct (take_rows_ok d1 idx n R1 I) as (d2 & E2 & D2 & K2). rewrite E2. cbn [bind].
  pose proof G as (T & S & K). destruct T as (P & N & R). rewrite cnames_descr in N.
  assert (D2' : cdescr (layout_cols fill d2) =
    output_dtype (if nmax0 <? 2 then 2 else nmax0) (filter is_extra (cdescr t) ++ (if psf then psf_dtype (if nmax0 <? 2 then 2 else nmax0) else []))).
  { rewrite layout_cols_descr, D2, D1. reflexivity. }
  destruct (resized_ok zero defval psf (zlen idx) maxcut (if nmax0 <? 2 then 2 else nmax0) (cdescr t) (layout_cols fill d2) N (zlen_nonneg _)) as (d3 & E3 & D3 & K3).
  { destruct (nmax0 <? 2) eqn:?; lia. }
  { destruct (nmax0 <? 2) eqn:?; lia. }
  { exact D2'. }
  rewrite E3. cbn [bind]. eexists. split; [reflexivity|]. split.
  - rewrite cnames_descr, layout_cols_descr, D3, output_fst, map_app. f_equal. f_equal.
    + assert (X : forall l, (forall c, In c l -> In c t) ->
        map fst (filter is_extra (cdescr l)) = map c_name (filter (fun c => negb (mem_str (c_name c) must_have)) l)).
      { induction l as [|c l IH]; intros Hl; [reflexivity|]. unfold cdescr; cbn [map filter]; fold (cdescr l).
        assert (IH' : map fst (filter is_extra (cdescr l)) = map c_name (filter (fun c => negb (mem_str (c_name c) must_have)) l)) by (apply IH; intros x Hx; apply Hl; right; exact Hx).
        destruct (good_extra n t c G (Hl c (or_introl eq_refl))) as [[H1 H2]|H1].
        - rewrite (proj2 (mem_str_In _ _) H1). cbn [negb]. destruct (is_extra _) eqn:Ex; [|exact IH'].
          apply is_extra_iff in Ex. exfalso. apply (proj1 Ex). cbn [fst]. rewrite output_list. apply in_or_app. left. exact H1.
        - rewrite H1. apply is_extra_iff in H1. cbn [fst] in H1.
          rewrite (proj2 (mem_str_false (c_name c) must_have)); [cbn [negb map fst]; f_equal; exact IH'|].
          intros Q. apply (proj1 H1). rewrite output_list. apply in_or_app. left. exact Q. }
      apply X. auto.
    + destruct psf; reflexivity.
  - intros c H Nb. destruct (K2 c (K1 c H)) as (c' & H' & SC). pose proof SC as (En & _).
    assert (NL : ~ In (c_name c') LAYOUT_COLUMNS).
    { rewrite En. intros Q. specialize (K c H). apply K. cbn in Q. destruct Q as [Q|Q]; [congruence|].
      cbn. tauto. }
    exists c'. split; [|exact SC]. apply layout_cols_in; [|exact NL].
    apply K3.
    + apply layout_cols_in; assumption.
    + intros Q. apply NL. cbn in Q |- *. tauto.
    + intros Q. apply NL. cbn in Q |- *. tauto.
Qed.

(** Columns with the names of computed ones are taken over by the constructor. *)
Lemma assign_res n w w' (rows : list (list A)) : (exists r, assign n w w' rows = Ok r) \/ assign n w w' rows = Err ValueError.
Proof.
  unfold assign. destruct w, w'; repeat match goal with |- context [if ?b then _ else _] => destruct b end; eauto.
Qed.

Lemma put_col_res n t s : (exists t', put_col n t s = Ok t' /\ cdescr t' = cdescr t) \/ put_col n t s = Err ValueError.
Proof.
  induction t as [|c t IH]; cbn [put_col]; [left; eauto|].
  destruct (String.eqb (c_name c) (c_name s)).
  - destruct (assign_res n (c_width c) (c_width s) (c_rows s)) as [(r & ->)| ->]; cbn [bind]; [|right; reflexivity].
    left. eexists. split; reflexivity.
  - destruct IH as [(t' & -> & D)| ->]; cbn [bind]; [|right; reflexivity]. left. eexists. split; [reflexivity|].
    unfold cdescr in *. cbn [map]. rewrite D. reflexivity.
Qed.

Lemma copy_fields_bad n (src dst : ctable A) c m w : In c src -> c_width c = Some m -> NoDup (cnames dst) ->
  In (c_name c, Some w) (cdescr dst) -> m <> w -> m <> 1 -> copy_fields n src dst = Err ValueError.
Proof.
  unfold copy_fields. revert dst. induction src as [|s src IH]; intros dst H W U I M M1; [destruct H|]. cbn [foldM].
  destruct H as [->|H].
  - assert (X : put_col n dst c = Err ValueError); [|rewrite X; reflexivity].
    rewrite cnames_descr in U. clear -I U W M M1. induction dst as [|x d IH]; [destruct I|]. cbn in I, U |- *. inversion U as [|? ? U1 U2]; subst.
    destruct (String.eqb_spec (c_name x) (c_name c)) as [E|E].
    + destruct I as [I|I]; [|exfalso; apply U1; rewrite E; apply (in_map fst _ _ I)].
      assert (I2 : c_width x = Some w) by congruence. rewrite W, I2. unfold assign.
      rewrite (proj2 (Z.eqb_neq m w) M), (proj2 (Z.eqb_neq m 1) M1). reflexivity.
    + destruct I as [I|I]; [inversion I; congruence|]. rewrite (IH U2 I). reflexivity.
  - destruct (put_col_res n dst s) as [(d & -> & D)| ->]; cbn [bind]; [|reflexivity].
    apply IH; try assumption; [rewrite cnames_descr, D, <- cnames_descr; exact U|rewrite D; exact I].
Qed.

Lemma wrong_width (zero defval : A) (psf : bool) nmax0 n t c m : table_ok n t -> In c t ->
  In (c_name c) cutout_columns -> c_width c = Some m -> m <> Z.max 2 nmax0 -> m <> 1 ->
  set_obj_data zero defval psf nmax0 n t = Err ValueError.
Proof.
  intros (P & N & R) H Cn W M M1.
  unfold set_obj_data, check_required. destruct (filter _ input_names); [|reflexivity]. cbn [bind].
  unfold get_full_obj_data. set (nmax := if nmax0 <? 2 then 2 else nmax0).
  replace (Z.max 2 nmax0) with nmax in M by (unfold nmax; destruct (nmax0 <? 2) eqn:?; lia).
  rewrite extra_fields_eq. rewrite cnames_descr in N.
  pose proof (full_names_nodup (cdescr t) psf nmax nmax N) as NF.
  destruct (struct_ok zero defval n nmax _ NF P) as (d0 & E0 & D0 & R0). rewrite E0. cbn [bind].
  apply (copy_fields_bad n t d0 c m nmax); try assumption.
  - rewrite cnames_descr, D0. exact NF.
  - rewrite D0. apply in_output_dtype. right. left. rewrite skip5. tauto.
Qed.

Lemma copy_last n (src dst : ctable A) d c : copy_fields n src dst = Ok d -> NoDup (cnames src) -> NoDup (cnames dst) ->
  In c src -> In (c_name c, c_width c) (cdescr dst) -> In c d.
Proof.
  unfold copy_fields. revert dst. induction src as [|s src IH]; intros dst E N U H I; [destruct H|]. cbn [foldM] in E.
  inversion N as [|? ? N1 N2]; subst. apply bind_ok in E. destruct E as (d1 & E1 & E).
  assert (D1 : cdescr d1 = cdescr dst).
  { destruct (put_col_res n dst s) as [(x & Ex & Dx)|Ex]; congruence. }
  destruct H as [->|H].
  - assert (K : In c d1).
    { clear -E1 I U. revert d1 E1. induction dst as [|x dst IH]; intros d1 E1; [destruct I|].
      cbn [put_col] in E1. rewrite cnames_descr in U. cbn in U, I. inversion U as [|? ? U1 U2]; subst.
      destruct (String.eqb_spec (c_name x) (c_name c)) as [E|E].
      - destruct I as [I|I]; [|exfalso; apply U1; rewrite E; apply (in_map fst _ _ I)].
        assert (I2 : c_width x = c_width c) by congruence. rewrite I2, assign_same in E1. cbn [bind] in E1.
        inversion E1; subst. left. rewrite E. apply col_eta.
      - destruct I as [I|I]; [congruence|]. apply bind_ok in E1. destruct E1 as (t' & E1 & E2). inversion E2; subst. right.
        apply IH; [rewrite cnames_descr; exact U2|exact I|exact E1]. }
    assert (X : forall src dst d, foldM (put_col n) src dst = Ok d -> ~ In (c_name c) (cnames src) -> In c dst -> In c d).
    { clear. induction src as [|s src IH]; intros dst d E Q H; cbn [foldM] in E; [congruence|].
      apply bind_ok in E. destruct E as (d1 & E1 & E). eapply IH; [exact E|intros K; apply Q; right; exact K|].
      assert (Q' : c_name s <> c_name c) by (intros K; apply Q; left; exact K). clear -E1 Q' H. revert d1 E1.
      induction dst as [|x dst IH]; intros d1 E1; [destruct H|]. cbn [put_col] in E1.
      destruct (String.eqb_spec (c_name x) (c_name s)) as [E|E].
      - apply bind_ok in E1. destruct E1 as (r & _ & E1). inversion E1; subst. destruct H as [->|H]; [congruence|right; exact H].
      - apply bind_ok in E1. destruct E1 as (t' & E1 & E2). inversion E2; subst. destruct H as [->|H]; [left; reflexivity|right; auto]. }
    eapply X; eauto.
  - eapply IH; [exact E|exact N2| |exact H|rewrite D1; exact I]. rewrite cnames_descr, D1, <- cnames_descr. exact U.
Qed.

(** A computed column of the right shape is taken over. *)
Lemma taken_over (zero defval : A) (psf : bool) nmax0 n t d c : table_ok n t -> set_obj_data zero defval psf nmax0 n t = Ok d ->
  In c t -> (c_name c = "ncutout"%string /\ c_width c = None \/ In (c_name c) cutout_columns /\ c_width c = Some (Z.max 2 nmax0)) ->
  In c d.
Proof.
  intros (P & N & R) E H Cn. unfold set_obj_data in E. apply bind_ok in E. destruct E as (u & _ & E).
  unfold get_full_obj_data in E. set (nmax := if nmax0 <? 2 then 2 else nmax0) in E.
  replace (Z.max 2 nmax0) with nmax in Cn by (unfold nmax; destruct (nmax0 <? 2) eqn:?; lia).
  rewrite extra_fields_eq in E. pose proof N as N'. rewrite cnames_descr in N.
  pose proof (full_names_nodup (cdescr t) psf nmax nmax N) as NF.
  destruct (struct_ok zero defval n nmax _ NF P) as (d0 & E0 & D0 & R0). rewrite E0 in E. cbn [bind] in E.
  eapply copy_last; [exact E|exact N'|rewrite cnames_descr, D0; exact NF|exact H|].
  rewrite D0. apply in_output_dtype. destruct Cn as [[-> ->]|[Cn ->]]; [left|right; left; rewrite skip5; tauto].
  split; [rewrite first5; cbn; tauto|reflexivity].
Qed.

(** The psf columns of the input are lost without psf_data. *)
Lemma psf_column_lost (zero defval : A) nmax0 n idx maxcut fill fill' t d : 0 <= n ->
  written_columns zero defval false nmax0 n idx maxcut fill fill' t = Ok d -> forall m, In m psf_columns -> ~ In m (cnames d).
Proof.
  intros P E m Hm H. unfold written_columns in E.
  apply bind_ok in E. destruct E as (d1 & _ & E). apply bind_ok in E. destruct E as (d2 & _ & E).
  apply bind_ok in E. destruct E as (d3 & E3 & E). inversion E; subst d. rewrite cnames_descr, layout_cols_descr in H.
  unfold make_resized_cols in E3. apply bind_ok in E3. destruct E3 as (s & Es & E3).
  assert (D : cdescr d3 = cdescr s).
  { clear -E3. revert d3 E3. induction s as [|c s IH]; intros d3 E3; cbn [mapM] in E3; [inversion E3; reflexivity|].
    apply bind_ok in E3. destruct E3 as (c' & Ec & E3). apply bind_ok in E3. destruct E3 as (s' & Es & E3). inversion E3; subst.
    unfold cdescr in *. cbn [map]. rewrite (IH _ Es). f_equal.
    unfold resize_col in Ec. destruct (find_col _ _) as [x|]; [|congruence].
    destruct (_ || _)%bool; [destruct (c_width x); [|discriminate]|];
      apply bind_ok in Ec; destruct Ec as (r & _ & Ec); inversion Ec; reflexivity. }
  rewrite D in H. unfold get_meds_output_struct in Es. destruct (nodup_names _); [|discriminate].
  apply ok_inj in Es. subst s.
  assert (H' : In m (map fst (output_dtype (if maxcut <? 2 then 2 else maxcut)
    (get_extra_fields false (layout_cols fill d2) (if maxcut <? 2 then 2 else maxcut))))).
  { apply in_map_iff in H. destruct H as (e & <- & H). apply in_map_iff in H. destruct H as (k & <- & H).
    apply in_map_iff in H. destruct H as (x & <- & H). cbn [c_name fst]. apply in_map. exact H. }
  clear H. rename H' into H. rewrite output_fst, output_app in H.
  apply in_app_or in H. destruct H as [H|H].
  - assert (K : forallb (fun n => negb (mem_str n (output_names []))) psf_columns = true) by (vm_compute; reflexivity).
    rewrite forallb_forall in K. specialize (K m Hm). apply negb_true_iff, mem_str_false in K. contradiction.
  - rewrite extra_fields_eq, app_nil_r in H. apply in_map_iff in H. destruct H as (e & <- & H). apply filter_In in H.
    destruct H as [_ H]. apply is_extra_iff in H. tauto.
Qed.
End Cat.
