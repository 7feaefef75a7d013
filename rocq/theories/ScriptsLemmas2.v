(** Lemmas on the extraction programs. *)
From Coq Require Import Lia String Ascii ZifyBool ZifyNat.
From Verif Require Import Base Img Types Extract Compare CProg SpecCProg Scripts SpecScripts BaseLemmas ScriptsLemmas.
From Verif Require CProgLemmas.
Open Scope Z_scope.

Section Life.
Context {M : Type}.
Variable resolve : string -> Z.
Variable order : list Z -> list Z.

Lemma put_only (d : disk M) p s s' : only_changed d (put (put d p s) p s') p s'.
Proof.
  unfold put. split; [now rewrite Z.eqb_refl|]. intros q H. now replace (q =? p) with false by lia.
Qed.
Lemma put_only1 (d : disk M) p s : only_changed d (put d p s) p s.
Proof.
  unfold put. split; [now rewrite Z.eqb_refl|]. intros q H. now replace (q =? p) with false by lia.
Qed.

(** A life without clean-up, for a request that passes the early check. *)
Lemma life_cases r meds sub (d : disk M) : early_check r = Ok tt ->
  let x := extractor_life resolve order r meds sub false d in
  match check_inputs meds sub r with
  | Err e => x = (d, Err e)
  | Ok _ => match d (resolve meds) with
            | Present f meta => match extraction order r f with
                                | Ok g => snd x = Ok tt /\ only_changed d (fst x) (resolve sub) (Present g meta)
                                | Err e => snd x = Err e /\ only_changed d (fst x) (resolve sub) Unfinished
                                end
            | _ => x = (d, Err FitsError)
            end
  end.
Proof.
  intros E x. unfold x, extractor_life, close, do_extract. rewrite E. destruct (check_inputs meds sub r); [|reflexivity].
  destruct (d (resolve meds)); try reflexivity. destruct (extraction order r f); cbn [fst snd].
  - split; [reflexivity|apply put_only].
  - split; [reflexivity|apply put_only1].
Qed.

Lemma check_range meds sub a b ca : check_inputs meds sub (ByRange a b ca) = Ok tt <-> meds <> sub /\ a <= b.
Proof.
  unfold check_inputs. destruct (String.eqb_spec meds sub) as [->|N].
  - split; [intros H; discriminate H|]. intros [H _]. congruence.
  - destruct (b <? a) eqn:B; split; intros H; try discriminate H; try reflexivity.
    + destruct H as [_ H]. lia.
    + split; [exact N|lia].
Qed.
Lemma check_range_cases meds sub a b ca : check_inputs meds sub (ByRange a b ca) = Ok tt \/
  exists e, check_inputs meds sub (ByRange a b ca) = Err e.
Proof. unfold check_inputs. destruct (String.eqb meds sub); [right; now eexists|]. destruct (b <? a); [right; now eexists|now left]. Qed.

(** * meds-extract-range *)
Notation rmain := (extract_range_main resolve order).

Lemma range_run args meds a b sub rest A B (d : disk M) f meta g :
  command args (meds :: a :: b :: sub :: rest) -> reads_as a A -> reads_as b B -> A <= B -> meds <> sub ->
  d (resolve meds) = Present f meta -> extract_range false f A B = Ok g ->
  snd (rmain args d) = 0 /\ only_changed d (fst (rmain args d)) (resolve sub) (Present g meta).
Proof.
  intros Hc Ha Hb L N Hd Hg. apply parse_command in Hc. apply py_int_iff in Ha, Hb.
  unfold extract_range_main. rewrite Hc, Ha, Hb.
  pose proof (life_cases (ByRange A B false) meds sub d eq_refl) as K. cbv zeta in K.
  assert (C : check_inputs meds sub (ByRange A B false) = Ok tt) by (apply check_range; auto).
  rewrite C, Hd in K. cbn [extraction] in K. rewrite Hg in K.
  destruct (extractor_life _ _ _ _ _ _ _) as [d' x]. cbn [fst snd] in *. destruct K as [-> K]. split; [reflexivity|exact K].
Qed.

(** All outcomes. *)
Lemma range_outcomes args (d : disk M) : let r := rmain args d in
  (snd r = 0 /\ (same_disk d (fst r) /\ (exists pre w post, args = (pre ++ w :: post)%list /\ Forall plain pre /\ asks_help w) \/
     exists meds a b sub rest A B f meta g, command args (meds :: a :: b :: sub :: rest) /\ reads_as a A /\ reads_as b B /\
       A <= B /\ meds <> sub /\ d (resolve meds) = Present f meta /\ extract_range false f A B = Ok g /\
       only_changed d (fst r) (resolve sub) (Present g meta))) \/
  (snd r = 1 /\ exists ws, command args ws /\
     (same_disk d (fst r) \/
      exists meds a b sub rest A B f meta e, ws = meds :: a :: b :: sub :: rest /\ reads_as a A /\ reads_as b B /\
       A <= B /\ meds <> sub /\ d (resolve meds) = Present f meta /\ extract_range false f A B = Err e /\
       only_changed d (fst r) (resolve sub) Unfinished)) \/
  (snd r = 2 /\ same_disk d (fst r) /\
     exists pre w post, args = (pre ++ w :: post)%list /\ Forall plain pre /\ ~ plain w /\ w <> "--"%string /\ ~ asks_help w).
Proof.
  intros r. unfold r, extract_range_main.
  destruct (parse_cases args) as [[l E]|[E|E]]; rewrite E.
  - apply parse_command in E. assert (Hsame : same_disk d d) by (intros q; reflexivity).
    destruct l as [|meds [|a [|b [|sub rest]]]]; try (right; left; cbn [fst snd]; split; [reflexivity|]; eexists; split; [exact E|]; now left).
    destruct (py_int_cases a) as [[A Ha]|Ha]; rewrite Ha; [|right; left; cbn [fst snd]; split; [reflexivity|]; eexists; split; [exact E|]; now left].
    destruct (py_int_cases b) as [[B Hb]|Hb]; rewrite Hb; [|right; left; cbn [fst snd]; split; [reflexivity|]; eexists; split; [exact E|]; now left].
    apply py_int_iff in Ha, Hb.
    pose proof (life_cases (ByRange A B false) meds sub d eq_refl) as K. cbv zeta in K.
    destruct (extractor_life _ _ _ _ _ _ _) as [d' x]. cbn [fst snd] in *.
    destruct (check_range_cases meds sub A B false) as [C|[e C]]; rewrite C in K.
    + apply check_range in C. destruct C as [N L]. destruct (d (resolve meds)) as [| |f meta] eqn:Hd.
      * injection K as -> ->. right; left. split; [reflexivity|]. eexists. split; [exact E|]. now left.
      * injection K as -> ->. right; left. split; [reflexivity|]. eexists. split; [exact E|]. now left.
      * cbn [extraction] in K. destruct (extract_range false f A B) as [g|e] eqn:Hg; destruct K as [-> K].
        -- left. split; [reflexivity|]. right. exists meds, a, b, sub, rest, A, B, f, meta, g. auto 10.
        -- right; left. split; [reflexivity|]. eexists. split; [exact E|]. right.
           exists meds, a, b, sub, rest, A, B, f, meta, e. auto 10.
    + injection K as -> ->. right; left. split; [reflexivity|]. eexists. split; [exact E|]. now left.
  - left. cbn [fst snd]. split; [reflexivity|]. left. split; [intros q; reflexivity|]. now apply parse_help.
  - right; right. cbn [fst snd]. split; [reflexivity|]. split; [intros q; reflexivity|]. now apply parse_bad.
Qed.

(** A number with a minus sign is taken for an option. *)
Lemma digit_not_h d : 0 <= d <= 9 -> ascii_of_nat (Z.to_nat (48 + d)) <> "h"%char /\ ascii_of_nat (Z.to_nat (48 + d)) <> "-"%char.
Proof.
  intros H. assert (d = 0 \/ d = 1 \/ d = 2 \/ d = 3 \/ d = 4 \/ d = 5 \/ d = 6 \/ d = 7 \/ d = 8 \/ d = 9) as K by lia.
  repeat destruct K as [-> | K]; try (split; discriminate). subst d. split; discriminate.
Qed.
Lemma range_negative args pre ds t post (d : disk M) : args = (pre ++ String "-" t :: post)%list -> Forall plain pre ->
  digits_text ds t -> snd (rmain args d) = 2 /\ same_disk d (fst (rmain args d)).
Proof.
  intros -> F H. assert (E : parse_args (pre ++ String "-" t :: post) = Exits 2).
  { apply parse_bad. exists pre, (String "-" t), post. split; [reflexivity|]. split; [exact F|].
    destruct (digits_first _ _ H) as (d0 & t' & Hd & ->). destruct (digit_not_h d0 Hd) as [N1 N2].
    revert N1 N2. generalize (ascii_of_nat (Z.to_nat (48 + d0))). clear. intros c N1 N2.
    split; [intros P; now specialize (P _ _ eq_refl)|]. split; [intros P; congruence|].
    intros [[s P]|P]; [cbn in P; congruence|]. cbn in P.
    repeat destruct P as [P|P]; try congruence. }
  unfold extract_range_main. rewrite E. split; [reflexivity|]. intros q; reflexivity.
Qed.

(** * meds-extract-catalog *)
Notation cmain := (extract_catalog_main resolve order).
Lemma check_cat meds sub : check_inputs meds sub CatalogOnly = (if String.eqb meds sub then Err ValueError else Ok tt).
Proof. reflexivity. Qed.

Lemma catalog_outcomes args (d : disk M) : let r := cmain args d in
  (snd r = 0 /\ (same_disk d (fst r) /\ (exists pre w post, args = (pre ++ w :: post)%list /\ Forall plain pre /\ asks_help w) \/
     exists meds sub rest f meta, command args (meds :: sub :: rest) /\ meds <> sub /\ d (resolve meds) = Present f meta /\
       only_changed d (fst r) (resolve sub) (Present (mkMeds (m_cat f) (m_number_col f) (m_psf_cols f) (m_info f) [] None) meta))) \/
  (snd r = 1 /\ same_disk d (fst r) /\ exists ws, command args ws /\
     forall meds sub rest, ws = meds :: sub :: rest -> meds = sub \/ forall f meta, d (resolve meds) <> Present f meta) \/
  (snd r = 2 /\ same_disk d (fst r) /\
     exists pre w post, args = (pre ++ w :: post)%list /\ Forall plain pre /\ ~ plain w /\ w <> "--"%string /\ ~ asks_help w).
Proof.
  intros r. unfold r, extract_catalog_main.
  destruct (parse_cases args) as [[l E]|[E|E]]; rewrite E.
  - apply parse_command in E. assert (Hsame : same_disk d d) by (intros q; reflexivity).
    destruct l as [|meds [|sub rest]];
      try (right; left; cbn [fst snd]; split; [reflexivity|]; split; [exact Hsame|]; eexists; split; [exact E|]; intros; discriminate).
    pose proof (life_cases CatalogOnly meds sub d eq_refl) as K. cbv zeta in K.
    destruct (extractor_life _ _ _ _ _ _ _) as [d' x]. cbn [fst snd] in *. rewrite check_cat in K.
    destruct (String.eqb_spec meds sub) as [->|N].
    + injection K as -> ->. right; left. split; [reflexivity|]. split; [exact Hsame|]. eexists. split; [exact E|].
      intros m s rs H. injection H as -> -> ->. now left.
    + destruct (d (resolve meds)) as [| |f meta] eqn:Hd.
      * injection K as -> ->. right; left. split; [reflexivity|]. split; [exact Hsame|]. eexists. split; [exact E|].
        intros m s rs H. injection H as <- <- <-. right. intros; congruence.
      * injection K as -> ->. right; left. split; [reflexivity|]. split; [exact Hsame|]. eexists. split; [exact E|].
        intros m s rs H. injection H as <- <- <-. right. intros; congruence.
      * cbn [extraction] in K. destruct K as [-> K]. left. split; [reflexivity|]. right. exists meds, sub, rest, f, meta. auto.
  - left. cbn [fst snd]. split; [reflexivity|]. left. split; [intros q; reflexivity|]. now apply parse_help.
  - right; right. cbn [fst snd]. split; [reflexivity|]. split; [intros q; reflexivity|]. now apply parse_bad.
Qed.

Lemma catalog_run args meds sub rest (d : disk M) f meta : command args (meds :: sub :: rest) -> meds <> sub ->
  d (resolve meds) = Present f meta ->
  snd (cmain args d) = 0 /\ only_changed d (fst (cmain args d)) (resolve sub)
    (Present (mkMeds (m_cat f) (m_number_col f) (m_psf_cols f) (m_info f) [] None) meta).
Proof.
  intros Hc N Hd. apply parse_command in Hc. unfold extract_catalog_main. rewrite Hc.
  pose proof (life_cases CatalogOnly meds sub d eq_refl) as K. cbv zeta in K. rewrite check_cat in K.
  apply String.eqb_neq in N. rewrite N, Hd in K.
  destruct (extractor_life _ _ _ _ _ _ _) as [d' x]. cbn [fst snd extraction] in *. destruct K as [-> K]. split; [reflexivity|exact K].
Qed.
End Life.
