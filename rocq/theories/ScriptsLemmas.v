(** Lemmas on the programs in scripts: texts of integers and command lines. *)
From Coq Require Import Lia String Ascii ZifyBool ZifyNat.
From Verif Require Import Base Img Types Extract Compare CProg SpecCProg Scripts SpecScripts BaseLemmas.
From Verif Require CProgLemmas.
Open Scope Z_scope.
Open Scope string_scope.

(** * Integers *)
Lemma digit_inv c d : digit c = Some d -> 0 <= d <= 9 /\ c = ascii_of_nat (Z.to_nat (48 + d)).
Proof.
  unfold digit. destruct (_ && _)%bool eqn:E; [|discriminate]. intros H. injection H as <-.
  apply andb_true_iff in E. destruct E as [E1 E2]. apply Nat.leb_le in E1, E2. split; [lia|].
  replace (Z.to_nat (48 + (Z.of_nat (nat_of_ascii c) - 48))) with (nat_of_ascii c) by lia. symmetry. apply ascii_nat_embedding.
Qed.

Lemma is_space_iff c : is_space c = true <-> In (nat_of_ascii c) [9; 10; 11; 12; 13; 32]%nat.
Proof.
  unfold is_space. cbn [In]. split.
  - intros H. apply orb_true_iff in H. destruct H as [H|H]; [apply Nat.eqb_eq in H; auto 10|].
    apply andb_true_iff in H. destruct H as [H1 H2]. apply Nat.leb_le in H1, H2. lia.
  - intros H. destruct H as [H|[H|[H|[H|[H|[H|[]]]]]]]; rewrite <- H; reflexivity.
Qed.

Lemma space_no_digit c : is_space c = true -> digit c = None.
Proof.
  intros H. apply is_space_iff in H. unfold digit. cbn [In] in H.
  destruct H as [H|[H|[H|[H|[H|[H|[]]]]]]]; rewrite <- H; reflexivity.
Qed.

Lemma skip_blank b s : blank b -> skip_spaces (b ++ s) = skip_spaces s.
Proof. induction 1 as [|c b Hc Hb IH]; [reflexivity|]. cbn. apply is_space_iff in Hc. rewrite Hc. exact IH. Qed.

Lemma skip_inv s : exists b, s = b ++ skip_spaces s /\ blank b /\
  (skip_spaces s = "" \/ exists c s', skip_spaces s = String c s' /\ is_space c = false).
Proof.
  induction s as [|c s IH]; cbn.
  - exists "". split; [reflexivity|]. split; [constructor|]. now left.
  - destruct (is_space c) eqn:E.
    + destruct IH as (b & E1 & E2 & E3). exists (String c b). split; [cbn; now rewrite <- E1|].
      split; [constructor; [now apply is_space_iff|exact E2]|exact E3].
    + exists "". split; [reflexivity|]. split; [constructor|]. right. eauto.
Qed.

Lemma int_digits_ok ds t b : digits_text ds t -> blank b -> forall a f,
  int_digits a f (t ++ b) = Some (fold_left (fun a d => 10 * a + d) ds a, b).
Proof.
  intros H Hb. induction H as [d Hd|d ds s Hd H IH|d ds s Hd H IH]; intros a f; cbn [text_of append int_digits fold_left].
  - rewrite CProgLemmas.digit_of by exact Hd. destruct Hb as [|c b Hc Hb]; [reflexivity|]. cbn [int_digits].
    apply is_space_iff in Hc. rewrite (space_no_digit _ Hc). cbn [negb].
    destruct (Ascii.eqb_spec c "_") as [->|N]; [discriminate Hc|reflexivity].
  - rewrite CProgLemmas.digit_of by exact Hd. apply IH.
  - rewrite CProgLemmas.digit_of by exact Hd. cbn. apply IH.
Qed.

Lemma int_digits_inv s : forall a f n rest, int_digits a f s = Some (n, rest) ->
  (f = true /\ n = a /\ rest = s) \/
  exists ds t, digits_text ds t /\ n = fold_left (fun a d => 10 * a + d) ds a /\
    (s = t ++ rest \/ f = true /\ s = "_" ++ t ++ rest).
Proof.
  induction s as [|c s IH]; intros a f n rest H; cbn [int_digits] in H.
  - destruct f; [|discriminate]. injection H as <- <-. now left.
  - destruct (digit c) as [d|] eqn:D.
    + right. apply digit_inv in D. destruct D as [Hd ->]. apply IH in H. destruct H as [(_ & -> & ->)|(ds & t & Ht & -> & [->|[_ ->]])].
      * exists [d], (text_of [d] ""). split; [now constructor|]. split; [reflexivity|]. now left.
      * exists (d :: ds), (text_of [d] t). split; [now constructor|]. split; [reflexivity|]. now left.
      * exists (d :: ds), (text_of [d] ("_" ++ t)). split; [now constructor|]. split; [reflexivity|]. now left.
    + destruct f; [|discriminate]. cbn [negb] in H. destruct (Ascii.eqb_spec c "_") as [->|N].
      * apply IH in H. destruct H as [(H & _ & _)|(ds & t & Ht & -> & [->|[H _]])]; [discriminate| |discriminate].
        right. exists ds, t. auto.
      * injection H as <- <-. now left.
Qed.

Lemma digits_first ds t : digits_text ds t -> exists d t', 0 <= d <= 9 /\ t = String (ascii_of_nat (Z.to_nat (48 + d))) t'.
Proof. intros [d Hd|d l s Hd _|d l s Hd _]; exists d; eexists; (split; [exact Hd|reflexivity]). Qed.

Lemma app_assoc_s (a b c : string) : (a ++ b) ++ c = a ++ b ++ c.
Proof. induction a; cbn; congruence. Qed.
Lemma app_nil_s (a : string) : a ++ "" = a.
Proof. induction a; cbn; congruence. Qed.

Lemma digit_case {A} d s (x y z : A) : 0 <= d <= 9 ->
  match String (ascii_of_nat (Z.to_nat (48 + d))) s with
  | String "-"%char _ => x | String "+"%char _ => y | _ => z end = z.
Proof.
  intros H. assert (d = 0 \/ d = 1 \/ d = 2 \/ d = 3 \/ d = 4 \/ d = 5 \/ d = 6 \/ d = 7 \/ d = 8 \/ d = 9) as K by lia.
  repeat destruct K as [-> | K]; try reflexivity. subst d. reflexivity.
Qed.

(** The sign of a text, as py_int splits it. *)
Definition split_sign (s : string) : Z * string :=
  match s with String "-"%char s' => (-1, s') | String "+"%char s' => (1, s') | _ => (1, s) end.
Lemma py_int_unfold s : py_int s =
  match int_digits 0 false (snd (split_sign (skip_spaces s))) with
  | Some (n, rest) => match skip_spaces rest with EmptyString => Ok (fst (split_sign (skip_spaces s)) * n) | _ => Err ValueError end
  | None => Err ValueError
  end.
Proof. unfold py_int. fold (split_sign (skip_spaces s)). destruct (split_sign (skip_spaces s)). reflexivity. Qed.

Lemma split_sign_cases s : (exists t, s = String "-" t /\ split_sign s = (-1, t)) \/
  (exists t, s = String "+" t /\ split_sign s = (1, t)) \/ split_sign s = (1, s).
Proof.
  destruct s as [|c s]; [now right; right|].
  destruct c as [b0 b1 b2 b3 b4 b5 b6 b7].
  destruct b0, b1, b2, b3, b4, b5, b6, b7; first [right; right; reflexivity | right; left; eexists; split; reflexivity | left; eexists; split; reflexivity].
Qed.

Lemma split_sign_digit d s : 0 <= d <= 9 ->
  split_sign (String (ascii_of_nat (Z.to_nat (48 + d))) s) = (1, String (ascii_of_nat (Z.to_nat (48 + d))) s).
Proof.
  intros H. assert (d = 0 \/ d = 1 \/ d = 2 \/ d = 3 \/ d = 4 \/ d = 5 \/ d = 6 \/ d = 7 \/ d = 8 \/ d = 9) as K by lia.
  repeat destruct K as [-> | K]; try reflexivity. subst d. reflexivity.
Qed.

Lemma py_int_of s z : reads_as s z -> py_int s = Ok z.
Proof.
  intros (b1 & sign & ds & t & b2 & -> & B1 & B2 & Ht & Hs). rewrite py_int_unfold, skip_blank by exact B1.
  assert (K : forall b, blank b -> skip_spaces b = "") by (intros b Hb; rewrite <- (app_nil_s b); now apply skip_blank).
  destruct (digits_first _ _ Ht) as (d & t' & Hd & Et).
  destruct Hs as [[[-> | ->] ->]|[-> ->]].
  - cbn [append]. rewrite Et. cbn [append]. rewrite CProgLemmas.skip_digit, split_sign_digit by exact Hd. cbn [fst snd].
    change (String _ (t' ++ b2)) with (String (ascii_of_nat (Z.to_nat (48 + d))) t' ++ b2). rewrite <- Et.
    rewrite (int_digits_ok ds t b2 Ht B2), (K _ B2). apply (f_equal (@Ok Z)). unfold value_of. lia.
  - change (skip_spaces ("+" ++ t ++ b2)) with (String "+" (t ++ b2)). cbn [split_sign fst snd].
    rewrite (int_digits_ok ds t b2 Ht B2), (K _ B2). apply (f_equal (@Ok Z)). unfold value_of. lia.
  - change (skip_spaces ("-" ++ t ++ b2)) with (String "-" (t ++ b2)). cbn [split_sign fst snd].
    rewrite (int_digits_ok ds t b2 Ht B2), (K _ B2). apply (f_equal (@Ok Z)). unfold value_of. lia.
Qed.

Lemma py_int_inv s z : py_int s = Ok z -> reads_as s z.
Proof.
  rewrite py_int_unfold. destruct (skip_inv s) as (b & Es & Hb & _).
  destruct (int_digits _ _ _) as [[n rest]|] eqn:D; [|discriminate].
  apply int_digits_inv in D. destruct D as [(D & _)|(ds & t & Ht & -> & [E|[D _]])]; try discriminate. fold (value_of ds).
  destruct (skip_inv rest) as (b2 & Er & Hb2 & _). destruct (skip_spaces rest) eqn:R; [|discriminate].
  rewrite app_nil_s in Er. subst rest. intros H. injection H as <-.
  destruct (split_sign_cases (skip_spaces s)) as [(u & E1 & E2)|[(u & E1 & E2)|E2]]; rewrite E2 in *; cbn [fst snd] in *.
  - exists b, "-", ds, t, b2. rewrite Es, E1, E. split; [reflexivity|]. split; [exact Hb|]. split; [exact Hb2|]. split; [exact Ht|].
    right. split; [reflexivity|lia].
  - exists b, "+", ds, t, b2. rewrite Es, E1, E. split; [reflexivity|]. split; [exact Hb|]. split; [exact Hb2|]. split; [exact Ht|].
    left. split; [now right|lia].
  - exists b, "", ds, t, b2. rewrite Es, E. split; [reflexivity|]. split; [exact Hb|]. split; [exact Hb2|]. split; [exact Ht|].
    left. split; [now left|lia].
Qed.

Lemma py_int_iff s z : py_int s = Ok z <-> reads_as s z.
Proof. split; [apply py_int_inv|apply py_int_of]. Qed.
Lemma py_int_cases s : (exists z, py_int s = Ok z) \/ py_int s = Err ValueError.
Proof.
  rewrite py_int_unfold. destruct (int_digits _ _ _) as [[n rest]|]; [|now right].
  destruct (skip_spaces rest); [left; eauto|now right].
Qed.

(** * Command lines *)
Lemma classify_plain w : classify w = Argument <-> plain w.
Proof.
  unfold plain. split.
  - intros H c s ->. cbn [classify] in H. revert H.
    destruct (Ascii.ascii_dec c "-") as [->|N].
    + destruct s; [discriminate|]. destruct (has_equals _); [discriminate|]. destruct (prefix _ _); discriminate.
    + assert (K : classify (String "-" (String c s)) = if Ascii.eqb c "h"%char then Help else BadOption).
      { destruct c as [b0 b1 b2 b3 b4 b5 b6 b7].
        destruct b0, b1, b2, b3, b4, b5, b6, b7; try reflexivity. congruence. }
      change (classify (String "-" (String c s)) = Argument -> False). rewrite K. destruct (Ascii.eqb c "h"); discriminate.
  - intros H. destruct w as [|c w]; [reflexivity|].
    destruct (Ascii.ascii_dec c "-") as [->|N].
    + destruct w as [|c' w]; [reflexivity|]. now specialize (H c' w).
    + destruct c as [b0 b1 b2 b3 b4 b5 b6 b7].
      destruct b0, b1, b2, b3, b4, b5, b6, b7; try reflexivity. congruence.
Qed.

Lemma classify_end w : classify w = EndOfOptions <-> w = "--".
Proof.
  split; [|intros ->; reflexivity]. intros H.
  destruct w as [|c w]; [discriminate|]. destruct (Ascii.ascii_dec c "-") as [->|N].
  - destruct w as [|c w]; [discriminate|]. destruct (Ascii.ascii_dec c "-") as [->|N].
    + destruct w; [reflexivity|]. cbn [classify] in H. destruct (has_equals _); [discriminate|]. destruct (prefix _ _); discriminate.
    + exfalso. revert H N. destruct c as [b0 b1 b2 b3 b4 b5 b6 b7]. destruct b0, b1, b2, b3, b4, b5, b6, b7; cbn; intros; congruence.
  - exfalso. revert H N. destruct c as [b0 b1 b2 b3 b4 b5 b6 b7]. destruct b0, b1, b2, b3, b4, b5, b6, b7; cbn; intros; congruence.
Qed.

Lemma prefix_help s : prefix s "help" = true <-> In s [""; "h"; "he"; "hel"; "help"].
Proof.
  split.
  - intros H. destruct s as [|c1 s]; [now left|]. cbn [prefix] in H. destruct (ascii_dec c1 "h") as [->|]; [|discriminate].
    destruct s as [|c2 s]; [now (right; left)|]. cbn [prefix] in H. destruct (ascii_dec c2 "e") as [->|]; [|discriminate].
    destruct s as [|c3 s]; [cbn; tauto|]. cbn [prefix] in H. destruct (ascii_dec c3 "l") as [->|]; [|discriminate].
    destruct s as [|c4 s]; [cbn; tauto|]. cbn [prefix] in H. destruct (ascii_dec c4 "p") as [->|]; [|discriminate].
    destruct s as [|c5 s]; [cbn; tauto|]. discriminate.
  - intros H. cbn in H. repeat destruct H as [<-|H]; try reflexivity. destruct H.
Qed.

Lemma classify_help w : classify w = Help <-> asks_help w.
Proof.
  unfold asks_help. split.
  - intros H. destruct w as [|c w]; [discriminate|]. destruct (Ascii.ascii_dec c "-") as [->|N].
    + destruct w as [|c w]; [discriminate|]. destruct (Ascii.ascii_dec c "-") as [->|N].
      * right. destruct w; [discriminate|]. cbn [classify] in H. destruct (has_equals _); [discriminate|].
        destruct (prefix _ _) eqn:P; [|discriminate]. apply prefix_help in P. cbn in P |- *.
        destruct P as [P|[P|[P|[P|[P|[]]]]]]; rewrite <- P; auto. discriminate.
      * left. assert (K : classify (String "-" (String c w)) = if Ascii.eqb c "h"%char then Help else BadOption).
        { revert N. clear. destruct c as [b0 b1 b2 b3 b4 b5 b6 b7].
          destruct b0, b1, b2, b3, b4, b5, b6, b7; intros; try reflexivity. congruence. }
        rewrite K in H. destruct (Ascii.eqb_spec c "h") as [->|]; [|discriminate]. exists w. reflexivity.
    + exfalso. revert H N. destruct c as [b0 b1 b2 b3 b4 b5 b6 b7]. destruct b0, b1, b2, b3, b4, b5, b6, b7; cbn; intros; congruence.
  - intros [[s ->]|H]; [reflexivity|]. cbn in H. repeat destruct H as [<-|H]; try reflexivity. destruct H.
Qed.

Lemma parse_command args l : parse_args args = Arguments_ l <-> command args l.
Proof.
  split.
  - revert l. induction args as [|w args IH]; intros l H; cbn [parse_args] in H.
    + injection H as <-. constructor.
    + destruct (classify w) eqn:C; try discriminate.
      * apply classify_end in C. subst w. injection H as <-. constructor.
      * apply classify_plain in C. destruct (parse_args args) as [l'|]; [|discriminate]. injection H as <-. constructor; auto.
  - induction 1 as [|l|w l l' P H IH]; cbn [parse_args]; try reflexivity.
    apply classify_plain in P. rewrite P, IH. reflexivity.
Qed.

Lemma parse_help args : parse_args args = Exits 0 <->
  exists pre w post, args = (pre ++ w :: post)%list /\ Forall plain pre /\ asks_help w.
Proof.
  split.
  - induction args as [|w args IH]; cbn [parse_args]; [discriminate|]. destruct (classify w) eqn:C; intros H; try discriminate.
    + exists [], w, args. split; [reflexivity|]. split; [constructor|]. now apply classify_help.
    + destruct (parse_args args) as [l'|n]; [discriminate|]. injection H as ->. destruct (IH eq_refl) as (pre & w' & post & -> & F & A).
      exists (w :: pre), w', post. split; [reflexivity|]. split; [constructor; [now apply classify_plain|exact F]|exact A].
  - intros (pre & w & post & -> & F & A). apply classify_help in A. induction F as [|p pre P F IH]; cbn [parse_args app].
    + now rewrite A.
    + apply classify_plain in P. now rewrite P, IH.
Qed.

Lemma parse_bad args : parse_args args = Exits 2 <->
  exists pre w post, args = (pre ++ w :: post)%list /\ Forall plain pre /\ ~ plain w /\ w <> "--" /\ ~ asks_help w.
Proof.
  split.
  - induction args as [|w args IH]; cbn [parse_args]; [discriminate|]. destruct (classify w) eqn:C; intros H; try discriminate.
    + exists [], w, args. split; [reflexivity|]. split; [constructor|].
      split; [intros P; apply classify_plain in P; congruence|]. split; [intros P; apply classify_end in P; congruence|].
      intros P; apply classify_help in P; congruence.
    + destruct (parse_args args) as [l'|n]; [discriminate|]. injection H as ->. destruct (IH eq_refl) as (pre & w' & post & -> & F & A).
      exists (w :: pre), w', post. split; [reflexivity|]. split; [constructor; [now apply classify_plain|exact F]|exact A].
  - intros (pre & w & post & -> & F & A1 & A2 & A3). induction F as [|p pre P F IH]; cbn [parse_args app].
    + destruct (classify w) eqn:C; [apply classify_end in C; tauto|apply classify_help in C; tauto|reflexivity|apply classify_plain in C; tauto].
    + apply classify_plain in P. now rewrite P, IH.
Qed.

Lemma parse_cases args : (exists l, parse_args args = Arguments_ l) \/ parse_args args = Exits 0 \/ parse_args args = Exits 2.
Proof.
  induction args as [|w args IH]; cbn [parse_args]; [left; eauto|]. destruct (classify w); eauto.
  destruct IH as [[l ->]|[->| ->]]; eauto.
Qed.
