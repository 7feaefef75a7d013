(** Conversion of positions in floating point. *)
From Coq Require Import Lia ZifyBool ZifyNat Lqa Qabs Qpower.
From Verif Require Import Base BaseLemmas Img Types BoundsM MakerLayout Single SingleLemmas CompositeLemmas Typed SpecTyped TypedLemmas FlMonoLemmas
  LayoutFl SpecLayoutFl LayoutFlLemmas LayoutFlLemmas2 OffsetFl SpecOffsetFl.
Open Scope Z_scope.

Definition conv (d inverse : bool) (o x : fl) : fl := if inverse then fadd d x (fcast d o) else fsub d x (fcast d o).

Lemma field_same n l : zlen l = n -> field_of n l = Ok l.
Proof. intros H. unfold field_of. rewrite H, Z.eqb_refl. reflexivity. Qed.
Lemma zlen_conv {A B} (f : A -> B) l : zlen (map f l) = zlen l.
Proof. unfold zlen. rewrite map_length. reflexivity. Qed.

Lemma positions_eq d row col o inv : zlen col = zlen row -> positions_fl d row col o inv =
  Ok (if inv then zip_pos (map (conv d inv o) row) (map (conv d inv o) col) row col
      else zip_pos row col (map (conv d inv o) row) (map (conv d inv o) col)).
Proof.
  intros H. unfold positions_fl. rewrite (field_same _ row eq_refl), (field_same _ col H). cbn [bind].
  destruct inv; rewrite !field_same by (rewrite zlen_conv; auto); reflexivity.
Qed.

Lemma zip_fields a b c d : length b = length a -> length c = length a -> length d = length a ->
  map fw_row (zip_pos a b c d) = a /\ map fw_col (zip_pos a b c d) = b /\ map fz_row (zip_pos a b c d) = c /\ map fz_col (zip_pos a b c d) = d.
Proof.
  revert b c d. induction a as [|x a IH]; intros [|y b] [|z c] [|w d]; try discriminate; intros A B C; [repeat split|].
  injection A as A. injection B as B. injection C as C. destruct (IH b c d A B C) as (E1 & E2 & E3 & E4).
  cbn [zip_pos map fw_row fw_col fz_row fz_col]. rewrite E1, E2, E3, E4. auto.
Qed.
Lemma zlen_length {A B} (a : list A) (b : list B) : zlen a = zlen b -> length a = length b. Proof. unfold zlen. lia. Qed.

Lemma fields d row col o inv : zlen col = zlen row -> exists l, positions_fl d row col o inv = Ok l /\
  (if inv then map fz_row l = row /\ map fz_col l = col /\ map fw_row l = map (conv d inv o) row /\ map fw_col l = map (conv d inv o) col
   else map fw_row l = row /\ map fw_col l = col /\ map fz_row l = map (conv d inv o) row /\ map fz_col l = map (conv d inv o) col).
Proof.
  intros H. rewrite positions_eq by exact H. apply zlen_length in H. destruct inv; eexists; (split; [reflexivity|]).
  - destruct (zip_fields (map (conv d true o) row) (map (conv d true o) col) row col) as (A & B & C & D); rewrite ?map_length; auto.
  - destruct (zip_fields row col (map (conv d false o) row) (map (conv d false o) col)) as (A & B & C & D); rewrite ?map_length; auto.
Qed.

Lemma broadcast d row x o inv : positions_fl d row [x] o inv = positions_fl d row (repeat x (length row)) o inv.
Proof.
  unfold positions_fl. rewrite (field_same _ row eq_refl). cbn [bind].
  assert (N : Z.to_nat (zlen row) = length row) by (unfold zlen; lia).
  assert (F : forall y, field_of (zlen row) [y] = Ok (repeat y (length row))).
  { intros y. unfold field_of. destruct (zlen [y] =? zlen row) eqn:E; [|rewrite N; reflexivity].
    assert (L : length row = 1%nat) by (unfold zlen in E; cbn [length] in E; lia). rewrite L. reflexivity. }
  assert (G : forall y, field_of (zlen row) (repeat y (length row)) = Ok (repeat y (length row))).
  { intros y. apply field_same. unfold zlen. rewrite repeat_length. reflexivity. }
  assert (M : forall f : fl -> fl, map f (repeat x (length row)) = repeat (f x) (length row)) by (clear; intros f; induction (length row) as [|k IH]; [reflexivity|cbn [repeat map]; rewrite IH; reflexivity]).
  cbn [map]. rewrite !F, !G. cbn [bind]. destruct inv; rewrite !field_same by (rewrite zlen_conv; reflexivity); rewrite ?M, ?F, ?G; reflexivity.
Qed.

Lemma other_shapes d row col o inv : zlen col <> zlen row -> zlen col <> 1 -> positions_fl d row col o inv = Err ValueError.
Proof.
  intros A B. unfold positions_fl. rewrite (field_same _ row eq_refl). cbn [bind]. unfold field_of.
  destruct (zlen col =? zlen row) eqn:E; [lia|]. destruct col as [|x [|y l]]; try reflexivity. exfalso. apply B. reflexivity.
Qed.

(** Theorem: the fields and their size. *)
Theorem stored d row col o inv : zlen col = zlen row \/ zlen col = 1 -> exists l col', positions_fl d row col o inv = Ok l /\ zlen l = zlen row /\
  zlen col' = zlen row /\ (zlen col = zlen row -> col' = col) /\ (forall x, col = [x] -> forall y, In y col' -> y = x) /\
  (if inv then map fz_row l = row /\ map fz_col l = col' else map fw_row l = row /\ map fw_col l = col').
Proof.
  assert (K : forall col', zlen col' = zlen row -> exists l, positions_fl d row col' o inv = Ok l /\ zlen l = zlen row /\
    (if inv then map fz_row l = row /\ map fz_col l = col' else map fw_row l = row /\ map fw_col l = col')).
  { intros col' H. destruct (fields d row col' o inv H) as (l & E & F). exists l. split; [exact E|].
    assert (L : zlen l = zlen row).
    { destruct inv; destruct F as (F & _); rewrite <- F; rewrite zlen_conv; reflexivity. }
    split; [exact L|]. destruct inv; destruct F as (F1 & F2 & _); auto. }
  intros [H|H].
  - destruct (K col H) as (l & E & L & F). exists l, col. split; [exact E|]. split; [exact L|]. split; [exact H|]. split; [auto|]. split; [|exact F].
    intros x -> y [->|[]]. reflexivity.
  - destruct col as [|x [|y t]]; [discriminate| |unfold zlen in H; cbn [length] in H; lia].
    destruct (K (repeat x (length row))) as (l & E & L & F); [unfold zlen; rewrite repeat_length; reflexivity|].
    exists l, (repeat x (length row)). rewrite broadcast. split; [exact E|]. split; [exact L|].
    split; [unfold zlen; rewrite repeat_length; reflexivity|]. split; [|split; [|exact F]].
    + intros Z. assert (N : length row = 1%nat) by (unfold zlen in Z; cbn [length] in Z; lia). rewrite N. reflexivity.
    + intros x0 [= ->] y Hy. apply repeat_spec in Hy. exact Hy.
Qed.

(** * Round trips of lists from those of one number *)
Lemma zip_f2 (R Q : fl -> fl -> Prop) (P : fpos -> fpos -> Prop) a a' b b' c c' e e' :
  (forall p q, R (fw_row p) (fw_row q) -> R (fw_col p) (fw_col q) -> Q (fz_row p) (fz_row q) -> Q (fz_col p) (fz_col q) -> P p q) ->
  Forall2 R a a' -> Forall2 R b b' -> Forall2 Q c c' -> Forall2 Q e e' -> Forall2 P (zip_pos a b c e) (zip_pos a' b' c' e').
Proof.
  intros HP A. revert b b' c c' e e'. induction A as [|x x' a a' Hx A IH]; intros b b' c c' e e' B C E; [constructor|].
  destruct B as [|y y' b b' Hy B]; [constructor|]. destruct C as [|z z' c c' Hz C]; [constructor|]. destruct E as [|w w' e e' Hw E]; [constructor|].
  cbn [zip_pos]. constructor; [apply HP; assumption|]. apply IH; assumption.
Qed.
Lemma f2_map (R : fl -> fl -> Prop) (f : fl -> fl) (P : fl -> Prop) l : Forall P l -> (forall x, P x -> R x (f x)) -> Forall2 R l (map f l).
Proof. intros H K. induction H as [|x l Hx H IH]; cbn [map]; constructor; auto. Qed.
Lemma f2_refl (R : fl -> fl -> Prop) (P : fl -> Prop) l : Forall P l -> (forall x, P x -> R x x) -> Forall2 R l l.
Proof. intros H K. induction H as [|x l Hx H IH]; constructor; auto. Qed.

Section Trip.
  Variables (d inv : bool) (o : fl) (P : fl -> Prop) (R : fl -> fl -> Prop) (RP : fpos -> fpos -> Prop).
  Hypothesis HRP : forall p q, R (fw_row p) (fw_row q) -> R (fw_col p) (fw_col q) -> R (fz_row p) (fz_row q) -> R (fz_col p) (fz_col q) -> RP p q.
  Hypothesis Hback : forall x, P x -> R x (conv true (negb inv) o (conv d inv o x)).
  Hypothesis Hrefl : forall x, P x -> R (conv d inv o x) (conv d inv o x).

  Lemma trip row col : zlen col = zlen row -> Forall P row -> Forall P col -> exists l l', positions_fl d row col o inv = Ok l /\
    (if inv then positions_fl true (map fw_row l) (map fw_col l) o false else positions_fl true (map fz_row l) (map fz_col l) o true) = Ok l' /\
    Forall2 RP l l'.
  Proof.
    intros H Pr Pc. destruct (fields d row col o inv H) as (l & E & F). exists l.
    assert (M : forall g : fl -> fl, zlen (map g col) = zlen (map g row)) by (intros g; rewrite !zlen_conv; exact H).
    assert (K : forall x, Forall P x -> Forall2 R (map (conv d inv o) x) (map (conv d inv o) x)).
    { intros x Hx. induction Hx; constructor; auto. }
    assert (B : forall x, Forall P x -> Forall2 R x (map (conv true (negb inv) o) (map (conv d inv o) x))).
    { intros x Hx. induction Hx; constructor; auto. }
    rewrite positions_eq in E by exact H. destruct inv; destruct F as (F1 & F2 & F3 & F4); rewrite F3, F4, (positions_eq _ _ _ _ _ (M _));
      eexists; (split; [rewrite positions_eq by exact H; exact E|]; split; [reflexivity|]); injection E as <-.
    - apply (zip_f2 R R); auto.
    - apply (zip_f2 R R); auto.
  Qed.
End Trip.
