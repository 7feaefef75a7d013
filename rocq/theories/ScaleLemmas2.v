(** Images with other zero points: both files can be made or neither (C147). *)
From Coq Require Import Lia ZifyBool ZifyNat.
From Verif Require Import Base Img Types Reader MakerLayout MakerWrite MakerFile SpecFile SpecScale
  BaseLemmas ImgLemmas ScaleLemmas.
Open Scope Z_scope.

Definition both {A B} (P : A -> B -> Prop) (x : res A) (y : res B) : Prop :=
  match x, y with Ok a, Ok b => P a b | Err e, Err e' => e = e' | _, _ => False end.

Lemma both_bind {A B C D} (P : A -> B -> Prop) (Q : C -> D -> Prop) x y f g :
  both P x y -> (forall a b, P a b -> both Q (f a) (g b)) -> both Q (bind x f) (bind y g).
Proof. destruct x, y; cbn; intros H K; try contradiction; [apply K; exact H|exact H]. Qed.
Lemma both_foldM {S S' X} (P : S -> S' -> Prop) f g (l : list X) :
  (forall s s' x, In x l -> P s s' -> both P (f s x) (g s' x)) -> forall s s', P s s' -> both P (foldM f l s) (foldM g l s').
Proof.
  induction l as [|x l IH]; intros H s s' E; cbn [foldM]; [exact E|].
  eapply both_bind; [apply H; [left; reflexivity|exact E]|]. intros a b Hab. apply IH; [|exact Hab].
  intros s1 s1' y Hy. apply H. right. exact Hy.
Qed.
Lemma both_mapM {A B X} (f : X -> res A) (g : X -> res B) (l : list X) : (forall x, both (fun _ _ => True) (f x) (g x)) ->
  both (fun a b => length a = length b) (mapM f l) (mapM g l).
Proof.
  intros H. induction l as [|x l IH]; cbn [mapM]; [reflexivity|]. eapply both_bind; [apply H|]. intros a b _.
  eapply both_bind; [exact IH|]. intros u v E. cbn. congruence.
Qed.

Definition alike {A B} (a : img A) (b : img B) : Prop := nr a = nr b /\ nc a = nc b /\ length (dat a) = length (dat b).
Definition as_long {A B} (a : list A) (b : list B) : Prop := length a = length b.

Lemma alike_px {A B} (a : img A) (b : img B) r c : alike a b -> both (fun _ _ => True) (px_res a r c) (px_res b r c).
Proof.
  intros (E1 & E2 & E3). unfold px_res, px. rewrite E1, E2. destruct (_ && _); cbn; [|reflexivity]. unfold zget.
  destruct (_ <? 0); [reflexivity|].
  destruct (nth_error (dat a) _) eqn:N1, (nth_error (dat b) _) eqn:N2; cbn; try exact I; try reflexivity.
  - apply nth_error_None in N2. assert (X : nth_error (dat a) (Z.to_nat (r * nc b + c)) <> None) by congruence.
    apply nth_error_Some in X. lia.
  - apply nth_error_None in N1. assert (X : nth_error (dat b) (Z.to_nat (r * nc b + c)) <> None) by congruence.
    apply nth_error_Some in X. lia.
Qed.
Lemma both_tab2M {A B} h w (f : Z -> Z -> res A) (g : Z -> Z -> res B) : (forall r c, both (fun _ _ => True) (f r c) (g r c)) ->
  both alike (tab2M h w f) (tab2M h w g).
Proof.
  intros H. unfold tab2M. eapply both_bind; [apply both_mapM; intros x; apply H|]. intros a b E. repeat split; exact E.
Qed.

Lemma both_stamp (fill : res Q) b r c (x y : img Q) : alike x y -> both alike (make_stamp fill b r c x) (make_stamp fill b r c y).
Proof.
  intros E. pose proof E as (E1 & E2 & E3). unfold make_stamp. rewrite E1, E2.
  destruct (get_clipped_boxes (nr y) r b) as [[a1 a2] [a3 a4]]. destruct (get_clipped_boxes (nc y) c b) as [[b1 b2] [b3 b4]].
  destruct (b <? 0); [reflexivity|]. destruct fill as [v|e]; cbn [bind]; [|reflexivity].
  destruct (full b b v) as [sub|e]; cbn [bind]; [|reflexivity].
  destruct (_ && _ && _ && _ && _ && _); [|repeat split].
  eapply both_bind.
  - unfold sub2d. rewrite E1, E2. apply both_tab2M. intros. apply alike_px. exact E.
  - intros u v' U. pose proof U as (U1 & U2 & _). unfold paste. rewrite U1, U2. destruct (_ && _); [|reflexivity].
    apply both_tab2M. intros i j. destruct (_ && _ && _ && _); apply alike_px; [exact U|repeat split].
Qed.

Lemma both_write_at (h h' : list Q) k (x y : list Q) : as_long h h' -> as_long x y -> both as_long (write_at h k x) (write_at h' k y).
Proof.
  unfold as_long, write_at, zlen. intros E1 E2. rewrite E1, E2. destruct (_ && _); [|reflexivity]. cbn.
  rewrite !app_length, !firstn_length, !skipn_length. lia.
Qed.

Lemma both_refl {A} (x : res A) : both eq x x.
Proof. destruct x; reflexivity. Qed.

Lemma both_file fill cat g (x y : img Q) h h' : alike x y -> as_long h h' ->
  both as_long (write_file_cutouts fill cat g x h) (write_file_cutouts fill cat g y h').
Proof.
  intros E L. unfold write_file_cutouts. apply both_foldM; [|exact L]. intros s s' o _ Hs.
  apply both_foldM; [|exact Hs]. intros u u' i _ U. eapply both_bind; [apply both_refl|]. intros sl ? <-.
  destruct (_ =? _); [|exact U]. unfold write_cutout. eapply both_bind; [apply both_refl|]. intros sl' ? <-.
  eapply both_bind; [apply both_stamp; exact E|]. intros a b (_ & _ & D). apply both_write_at; [exact U|exact D].
Qed.

Definition both_images (x y : option (img Q)) : Prop :=
  match x, y with Some a, Some b => alike a b | None, None => True | _, _ => False end.

Lemma both_cutouts fill cat n r1 r2 (h h' : list Q) : (forall g, 0 <= g < n -> both both_images (r1 g) (r2 g)) -> as_long h h' ->
  both as_long (write_cutouts fill cat n r1 h) (write_cutouts fill cat n r2 h').
Proof.
  intros H L. unfold write_cutouts. apply both_foldM; [|exact L]. intros s s' g G Hs. apply In_zrange in G.
  eapply both_bind; [apply H; exact G|]. intros [a|] [b|] E; cbn in E; try contradiction; [apply both_file; assumption|exact Hs].
Qed.

Lemma alike_imap {A B C} (f : A -> B) (g : A -> C) im : alike (imap f im) (imap g im).
Proof. repeat split. cbn. rewrite !map_length. reflexivity. Qed.
Lemma images_refl x : both both_images x x.
Proof. destruct x as [[a|]|e]; cbn; [repeat split|exact I|reflexivity]. Qed.

Lemma both_read u s1 s2 a t : same_files s1 s2 -> ~ (a == 0)%Q -> (src_scale s2 == a * src_scale s1)%Q ->
  both both_images (read_image u s1 t) (read_image u s2 t).
Proof.
  intros (E0 & E1 & E2 & E3 & E4 & E5 & E6 & E7) A S. unfold read_image.
  rewrite <- E0, <- E1, <- E2, <- E3, <- E4, <- E5, <- E6, <- E7. destruct t; try apply images_refl.
  - eapply both_bind; [apply both_refl|]. intros i ? <-. eapply both_bind; [apply both_refl|]. intros b ? <-.
    destruct i as [i|]; [|reflexivity]. eapply both_bind; [apply both_refl|]. intros y ? <-. cbn. apply alike_imap.
  - eapply both_bind; [apply both_refl|]. intros i ? <-. eapply both_bind; [apply both_refl|]. intros y ? <-.
    destruct y as [y|]; [|exact eq_refl].
    assert (Z : Qeq_bool (src_scale s2) 0 = Qeq_bool (src_scale s1) 0).
    { apply Bool.eq_true_iff_eq. rewrite !Qeq_bool_iff. rewrite S. split; intros H.
      - apply Qmult_integral in H. tauto.
      - rewrite H. ring. }
    rewrite Z. destruct (Qeq_bool (src_scale s1) 0); [exact eq_refl|]. cbn. apply alike_imap.
Qed.

Definition exts_alike (x y : list (ctype * list Q)) : Prop :=
  Forall2 (fun a b => fst a = fst b /\ as_long (snd a) (snd b)) x y.

Lemma find_alike x y t : exts_alike x y ->
  match ext_find x t, ext_find y t with Some a, Some b => as_long a b | None, None => True | _, _ => False end.
Proof.
  intros H. induction H as [|[t1 a] [t2 b] x y (E & L) H IH]; cbn [ext_find]; [exact I|]. cbn in E, L. subst t2.
  destruct (ctype_eqb t1 t); [exact L|exact IH].
Qed.
Lemma set_alike x y t a b : exts_alike x y -> as_long a b -> exts_alike (ext_set x t a) (ext_set y t b).
Proof.
  intros H L. induction H as [|[t1 c] [t2 d] x y (E & L') H IH]; cbn [ext_set]; [constructor|]. cbn in E, L'. subst t2.
  destruct (ctype_eqb t1 t); constructor; cbn; auto.
Qed.

Lemma both_types u cat rows1 rows2 a types x y : rescaled a rows1 rows2 -> exts_alike x y ->
  both exts_alike (write_types u cat (map ir_src rows1) types x) (write_types u cat (map ir_src rows2) types y).
Proof.
  intros (L & R) E. unfold write_types. apply both_foldM; [|exact E]. intros s s' t _ Hs.
  pose proof (find_alike _ _ t Hs) as F. destruct (ext_find s t) as [h|], (ext_find s' t) as [h'|]; try contradiction; [|exact eq_refl].
  eapply both_bind; [|intros b c Hbc; apply set_alike; [exact Hs|exact Hbc]].
  rewrite !zlen_map, <- L. apply both_cutouts; [|exact F]. intros g G.
  destruct (zget_range_Some rows1 g G) as (r1 & G1). destruct (zget_range_Some rows2 g) as (r2 & G2); [lia|].
  destruct (R _ _ _ G1 G2) as (_ & SF & A & S). rewrite !py_index_nonneg by lia. rewrite !zget_map, G1, G2. cbn [option_map bind].
  eapply both_read; eassumption.
Qed.

Lemma reserve_alike types total j1 j2 : exts_alike (reserve types total j1) (reserve types total j2).
Proof.
  unfold reserve. induction types as [|t types IH]; cbn [map]; constructor; [|exact IH].
  split; [reflexivity|]. unfold as_long. cbn. rewrite !map_length. reflexivity.
Qed.

Lemma scale_outcome k types rows1 rows2 a psf input j1 j2 p : rescaled a rows1 rows2 ->
  match make_meds k types rows1 psf input j1 p, make_meds k types rows2 psf input j2 p with
  | Ok _, Ok _ => True | Err e, Err e' => e = e' | _, _ => False end.
Proof.
  intros R. pose proof (rescaled_images _ _ _ R) as EI. pose proof (proj1 R) as L.
  change (both (fun _ _ => True) (make_meds k types rows1 psf input j1 p) (make_meds k types rows2 psf input j2 p)).
  unfold make_meds, new_maker. rewrite EI, L.
  destruct (set_cutout_types types) as [names|e]; cbn [bind]; [|exact eq_refl].
  destruct (mapM _ names) as [tys|e]; cbn [bind]; [|exact eq_refl].
  match goal with |- context [bind (bind ?x _) _] => destruct x as [[]|e] end; cbn [bind]; [|exact eq_refl].
  eapply both_bind with (P := fun _ _ => True); [|intros [? ?] [? ?] _; exact I].
  unfold write. cbn [mk_conf mk_rows mk_psf mk_cat]. unfold full_layout. rewrite EI.
  eapply both_bind; [apply both_refl|]. intros [[cat total] tp] ? <-.
  eapply both_bind with (P := fun _ _ => True); [|intros ? ? _; exact I].
  unfold write_data. cbn [k_unusable k_types k_joblib k_njob k_l k_p k_number_col].
  eapply both_bind; [eapply both_types; [exact R|apply reserve_alike]|]. intros x y _.
  eapply both_bind; [apply both_refl|]. intros q ? <-. exact I.
Qed.
