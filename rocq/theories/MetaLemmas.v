(** Proofs about metadata, image_info and validation. *)
From Coq Require Import String Lia.
From Verif Require Import Base Img Types MakerFile CLib Meta SpecCLib SpecMeta BaseLemmas FileLemmas MakerLemmas MakerLemmas5 MakerLemmas6 SpecFile CLibLemmas.
Open Scope Z_scope.

Lemma mem_str_In n l : mem_str n l = true <-> In n l.
Proof.
  unfold mem_str. rewrite existsb_exists. split.
  - intros (x & X & E). apply String.eqb_eq in E. subst; assumption.
  - intros H. exists n. split; [assumption|apply String.eqb_refl].
Qed.
Lemma mem_str_false n l : mem_str n l = false <-> ~ In n l.
Proof. rewrite <- mem_str_In. destruct (mem_str n l); split; congruence. Qed.

(** * image_info *)

Lemma check_info_iff cols : (check_image_info cols = Ok tt <-> forall n, In n documented_info_columns -> In n cols) /\
  (check_image_info cols = Ok tt \/ check_image_info cols = Err ValueError).
Proof.
  unfold check_image_info.
  assert (E : image_info_names false [] = documented_info_columns) by reflexivity. rewrite E.
  destruct (filter (fun n => negb (mem_str n cols)) documented_info_columns) as [|n l] eqn:F; cbv zeta.
  - split; [|left; reflexivity]. split; [|reflexivity]. intros _ n N.
    destruct (mem_str n cols) eqn:M; [apply mem_str_In; exact M|].
    assert (X : In n []) by (rewrite <- F; apply filter_In; rewrite M; auto). destruct X.
  - split; [|right; reflexivity]. split; [discriminate|]. intros H.
    assert (X : In n (n :: l)) by (left; reflexivity). rewrite <- F in X. apply filter_In in X. destruct X as (X1 & X2).
    apply H, mem_str_In in X1. rewrite X1 in X2. discriminate.
Qed.

(** The documented columns are not those the C library reads. *)
Lemma documented_not_c cols : (forall n, In n cols -> In n documented_info_columns \/ n = "wcs"%string) -> ~ c_columns cols.
Proof.
  intros H C. specialize (C "sky_path"%string). destruct (H "sky_path"%string) as [D|D].
  - apply C. cbn. tauto.
  - cbn in D. intuition discriminate.
  - discriminate.
Qed.

Lemma documented_not_opened cf : file_wf (cf_file cf) ->
  (forall n, In n (cf_info_cols cf) <-> In n documented_info_columns) ->
  check_image_info (cf_info_cols cf) = Ok tt /\ meds_open cf = Ok None.
Proof.
  intros W H. split.
  - apply check_info_iff. intros n N. apply H. exact N.
  - destruct (meds_open_iff cf W) as [(_ & _ & _ & C & _)|(E & _)]; [|exact E]. exfalso. revert C.
    apply documented_not_c. intros n N. left. apply H. exact N.
Qed.

(** * Metadata *)

Lemma nodup_names_iff l : nodup_names l = true <-> NoDup l.
Proof.
  induction l as [|a l IH]; cbn; [split; [constructor|reflexivity]|].
  rewrite andb_true_iff, negb_true_iff, IH, mem_str_false. split.
  - intros (A & B). constructor; assumption.
  - intros H. inversion H; subst. auto.
Qed.

Lemma set_col_names t n v : names (set_col t n v) = names t.
Proof. induction t as [|[k w] t IH]; cbn; [reflexivity|]. destruct (String.eqb k n); cbn; [reflexivity|]. f_equal. exact IH. Qed.

Lemma set_col_same t n v : In n (names t) -> In (n, v) (set_col t n v).
Proof.
  induction t as [|[k w] t IH]; cbn; [tauto|]. destruct (String.eqb k n) eqn:E.
  - apply String.eqb_eq in E. subst. left; reflexivity.
  - apply String.eqb_neq in E. intros [H|H]; [contradiction|right; auto].
Qed.
Lemma set_col_other t n v k w : k <> n -> In (k, w) t -> In (k, w) (set_col t n v).
Proof.
  intros N. induction t as [|[k' w'] t IH]; cbn; [tauto|]. intros [H|H].
  - inversion H; subst. destruct (String.eqb k n) eqn:E; [apply String.eqb_eq in E; contradiction|left; reflexivity].
  - destruct (String.eqb k' n); right; auto.
Qed.

Lemma fold_set_names t m : names (fold_left (fun m c => set_col m (fst c) (snd c)) t m) = names m.
Proof. revert m. induction t as [|c t IH]; intros m; cbn; [reflexivity|]. rewrite IH. apply set_col_names. Qed.
Lemma fold_set_other t m k w : ~ In k (names t) -> In (k, w) m -> In (k, w) (fold_left (fun m c => set_col m (fst c) (snd c)) t m).
Proof.
  revert m. induction t as [|[k' w'] t IH]; intros m N H; cbn; [exact H|]. apply IH; [intros X; apply N; right; exact X|].
  apply set_col_other; [intros E; apply N; left; symmetry; exact E|exact H].
Qed.
Lemma fold_set_ok t m : NoDup (names t) -> (forall n, In n (names t) -> In n (names m)) ->
  forall n v, In (n, v) t -> In (n, v) (fold_left (fun m c => set_col m (fst c) (snd c)) t m).
Proof.
  revert m. induction t as [|[k w] t IH]; intros m ND S n v; [intros []|]. inversion ND; subst. cbn [fold_left fst snd].
  intros [H|H].
  - inversion H; subst. apply fold_set_other; [assumption|]. apply set_col_same. apply S. left; reflexivity.
  - apply IH; [assumption| |exact H]. intros n' N'. rewrite set_col_names. apply S. right; exact N'.
Qed.

Lemma nodup_disjoint (l l' : list string) x : NoDup (l ++ l') -> In x l -> ~ In x l'.
Proof.
  induction l as [|a l IH]; cbn; intros E H; [destruct H|]. inversion E; subst. destruct H as [->|H]; [|apply IH; assumption].
  intros X. apply H2. apply in_or_app. right; exact X.
Qed.
Lemma nodup_left (l l' : list string) : NoDup (l ++ l') -> NoDup l.
Proof.
  induction l as [|a l IH]; cbn; intros E; constructor; inversion E; subst; [|apply IH; assumption].
  intros X. apply H1. apply in_or_app. left; exact X.
Qed.

Definition meta_names (meta_in : option table) : list string := match meta_in with Some t => names t | None => [] end.
Definition meta_rows (meta_in : option table) (n : Z) : Z := match meta_in with Some _ => n | None => 1 end.

Lemma set_meta_iff vs meta_in n :
  (NoDup (meta_names meta_in ++ VERSION_NAMES) /\
   exists t, set_meta_data vs meta_in n = Ok t /\ names t = meta_names meta_in ++ VERSION_NAMES /\
     (forall k v t0, meta_in = Some t0 -> column t0 k v -> column t k v) /\
     forall k v, In (k, v) (version_columns vs) -> column t k (repeat v (Z.to_nat (meta_rows meta_in n))))
  \/ (~ NoDup (meta_names meta_in ++ VERSION_NAMES) /\ set_meta_data vs meta_in n = Err ValueError).
Proof.
  unfold set_meta_data, zeros_table. fold (meta_names meta_in). fold (meta_rows meta_in n).
  destruct (nodup_names (meta_names meta_in ++ VERSION_NAMES)) eqn:E.
  2: { right. split; [|reflexivity]. rewrite <- nodup_names_iff. congruence. }
  left. apply nodup_names_iff in E. split; [exact E|]. cbn [bind]. cbv zeta.
  set (z := map _ _). set (m := match meta_in with Some t => fold_left (fun m c => set_col m (fst c) (snd c)) t z | None => z end).
  assert (NZ : names z = meta_names meta_in ++ VERSION_NAMES) by (unfold z, names; rewrite map_map; apply map_id).
  assert (NM : names m = meta_names meta_in ++ VERSION_NAMES) by (unfold m; destruct meta_in; [rewrite fold_set_names|]; exact NZ).
  eexists. split; [reflexivity|]. split; [rewrite !set_col_names; exact NM|].
  assert (IV : forall k, In k VERSION_NAMES -> In k (names m)) by (intros k K; rewrite NM; apply in_or_app; right; exact K).
  split.
  - intros k v t0 -> C. cbn [meta_names] in *. unfold column in *.
    assert (KN : In k (names t0)) by (apply in_map_iff; exists (k, v); auto).
    assert (KV : ~ In k VERSION_NAMES).
    { exact (nodup_disjoint _ _ k E KN). }
    assert (CM : In (k, v) m).
    { unfold m. apply fold_set_ok; [| |exact C].
      - exact (nodup_left _ _ E).
      - intros k' K'. rewrite NZ. apply in_or_app. left; exact K'. }
    repeat (apply set_col_other; [intros ->; apply KV; unfold VERSION_NAMES; cbn; tauto|]). exact CM.
  - intros k v K. unfold version_columns in K. unfold column.
    repeat (destruct K as [K|K]; [inversion K; subst; clear K|]); [..|destruct K];
    repeat first [apply set_col_same; rewrite ?set_col_names; apply IV; unfold VERSION_NAMES; cbn; tauto
                 |apply set_col_other; [discriminate|]].
Qed.

(** * Validation *)

Lemma has_ext_iff f n : has_ext f n = true <-> present n (vf_ext f).
Proof.
  unfold has_ext, present. rewrite mem_str_In, in_map_iff. split; intros (c & A & B); exists c; auto.
Qed.

Lemma ok_inj {A} (a b : A) : Ok a = Ok b -> a = b.
Proof. intros H. congruence. Qed.

Lemma validate_err f : (validate_meds f = Err FitsError /\
    ~ (present "object_data" (vf_ext f) /\ present "image_info" (vf_ext f) /\ present "metadata" (vf_ext f))) \/
  (exists l, validate_meds f = Ok l) /\
    present "object_data" (vf_ext f) /\ present "image_info" (vf_ext f) /\ present "metadata" (vf_ext f).
Proof.
  unfold validate_meds, open_meds.
  destruct (has_ext f "object_data" && has_ext f "image_info" && has_ext f "metadata") eqn:E; cbn [bind].
  - right. split; [eexists; reflexivity|]. apply andb_true_iff in E. destruct E as (E & E3). apply andb_true_iff in E. destruct E as (E1 & E2).
    rewrite <- !has_ext_iff. auto.
  - left. split; [reflexivity|]. rewrite <- !has_ext_iff. intros (A & B & C). rewrite A, B, C in E. discriminate.
Qed.

Lemma missing_iff (req cols : list string) n :
  In n (filter (fun n => negb (mem_str (lower n) (map lower cols))) req) <-> In n req /\ ~ present n cols.
Proof.
  rewrite filter_In, negb_true_iff, mem_str_false. unfold present. rewrite in_map_iff.
  split; intros (A & B); split; auto; intros (c & C); apply B; exists c; tauto.
Qed.

Lemma filter_ext_in_str (f g : string -> bool) l : (forall x, In x l -> f x = g x) -> filter f l = filter g l.
Proof. induction l as [|a l IH]; intros H; cbn; [reflexivity|]. rewrite (H a (or_introl eq_refl)), IH; [reflexivity|intros x X; apply H; right; exact X]. Qed.

Lemma reports_iff f l : validate_meds f = Ok l -> forall r, In r l <->
  match r with
  | MissingExt n => n = "image_cutouts"%string /\ ~ present n (vf_ext f)
  | MissingObj n => In n required_object_columns /\ ~ present n (vf_obj_cols f)
  | MissingInfo n => In n required_info_columns /\ ~ present n (vf_info_cols f)
  end.
Proof.
  intros H r. destruct (validate_err f) as [(E & _)|(_ & P1 & P2 & P3)]; [congruence|].
  revert H. unfold validate_meds. destruct (open_meds f); cbn [bind]; [|discriminate]. cbv zeta. intros H.
  apply ok_inj in H. subst l. change (output_names []) with required_object_columns.
  rewrite !in_app_iff, !in_map_iff.
  assert (EI : filter (fun n => negb (mem_str n (map lower (vf_info_cols f)))) required_info_columns =
     filter (fun n => negb (mem_str (lower n) (map lower (vf_info_cols f)))) required_info_columns).
  { apply filter_ext_in_str. intros x X. replace (lower x) with x; [reflexivity|].
    unfold required_info_columns in X. cbn in X. repeat (destruct X as [<-|X]; [reflexivity|]). destruct X. }
  fold required_info_columns. rewrite EI.
  assert (HX : forall n, In n (filter (fun n => negb (has_ext f n)) ["object_data"; "image_info"; "image_cutouts"]%string) <->
     n = "image_cutouts"%string /\ ~ present n (vf_ext f)).
  { intros n. rewrite filter_In, negb_true_iff. rewrite <- has_ext_iff. apply has_ext_iff in P1. apply has_ext_iff in P2.
    cbn [In]. split.
    - intros ([<-|[<-|[<-|[]]]] & B); try congruence. split; [reflexivity|congruence].
    - intros (-> & B). split; [tauto|]. destruct (has_ext f "image_cutouts"); congruence. }
  destruct r as [n|n|n]; split.
  - intros [(x & X & I)|[(x & X & _)|(x & X & _)]]; try discriminate. inversion X; subst. apply HX; exact I.
  - intros I. left. exists n. split; [reflexivity|]. apply HX. exact I.
  - intros [(x & X & _)|[(x & X & I)|(x & X & _)]]; try discriminate. inversion X; subst. apply missing_iff; exact I.
  - intros I. right; left. exists n. split; [reflexivity|]. apply missing_iff. exact I.
  - intros [(x & X & _)|[(x & X & _)|(x & X & I)]]; try discriminate. inversion X; subst. apply missing_iff; exact I.
  - intros I. right; right. exists n. split; [reflexivity|]. apply missing_iff. exact I.
Qed.

Lemma written_image k types rows psf input junk pjunk f : make_meds k types rows psf input junk pjunk = Ok f ->
  In TImage (map fst (m_ext f)).
Proof.
  intros H. destruct (written_types _ _ _ _ _ _ _ _ H) as (tys & (nm & N & M) & ->).
  destruct (set_cutout_types_ok _ _ N) as ((tl & ->) & _). cbn [mapM] in M.
  change (ctype_of "image") with (Some TImage) in M. cbn [bind] in M.
  destruct (mapM _ tl) as [l|]; cbn [bind] in M; [|discriminate]. inversion M; subst. left; reflexivity.
Qed.

Lemma written_validates k types rows psf input junk pjunk f extra info_cols pi :
  make_meds k types rows psf input junk pjunk = Ok f -> check_image_info info_cols = Ok tt ->
  validate_meds (names_of f extra info_cols pi) = Ok [].
Proof.
  intros H C. apply written_image in H. pose proof (proj1 (proj1 (check_info_iff info_cols)) C) as C'.
  assert (P : forall n l, In n l -> present n l) by (intros n l X; exists n; auto).
  destruct (validate_err (names_of f extra info_cols pi)) as [(_ & N)|((l & L) & _)].
  { exfalso. apply N. cbn [names_of vf_ext]. repeat split; apply P; apply in_or_app; left; cbn; tauto. }
  rewrite L. destruct l as [|r l]; [reflexivity|]. exfalso.
  pose proof (proj1 (reports_iff _ _ L r) (or_introl eq_refl)) as R. destruct r as [n|n|n]; destruct R as (R1 & R2); apply R2, P.
  - subst n. cbn [names_of vf_ext]. apply in_or_app. right. apply in_or_app. left.
    apply in_map_iff in H. destruct H as (e & E1 & E2). apply in_map_iff. exists e. rewrite E1. auto.
  - cbn [names_of vf_obj_cols]. unfold output_names. fold required_object_columns. apply in_or_app. left. exact R1.
  - cbn [names_of vf_info_cols]. apply C'. clear -R1. unfold required_info_columns in R1. unfold documented_info_columns. cbn in *. tauto.
Qed.

(** The metadata of a file cannot be passed to the maker again. *)
Lemma again_fails vs vs' meta_in n n' t : set_meta_data vs meta_in n = Ok t -> set_meta_data vs' (Some t) n' = Err ValueError.
Proof.
  intros H. destruct (set_meta_iff vs' (Some t) n') as [(N & _)|(_ & E)]; [|exact E]. exfalso.
  destruct (set_meta_iff vs meta_in n) as [(_ & t' & T & NT & _)|(_ & E)]; [|congruence].
  rewrite H in T. inversion T; subst t'. cbn [meta_names] in N. rewrite NT in N.
  apply (nodup_disjoint _ _ "numpy_version"%string N); [apply in_or_app; right|]; unfold VERSION_NAMES; cbn; tauto.
Qed.
