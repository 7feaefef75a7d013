(** Witnesses for the text columns. *)
From Coq Require Import String Ascii Lia ZifyBool.
From Verif Require Import Base BaseLemmas Img Types MakerLayout WcsSel InfoText SpecInfoText InfoTextLemmas.
Open Scope Z_scope.
Open Scope list_scope.

Lemma ascii_b t : forallb (fun c => code c <? 128) t = true -> is_ascii t.
Proof. intros H c Hc. rewrite forallb_forall in H. specialize (H c Hc). lia. Qed.

Definition blankb (c : ascii) : bool := (code c =? 0) || (code c =? 32) || ((9 <=? code c) && (code c <=? 13)).
Definition first_ok (t : text) : bool := match t with [] => true | c :: _ => negb (blankb c) end.
Lemma clean_b t : first_ok t && first_ok (rev t) = true -> clean t.
Proof.
  intros H. apply andb_prop in H. destruct H as (H1 & H2). split.
  - intros c t' ->. cbn [first_ok] in H1. unfold blankb, blank in *. lia.
  - intros c t' ->. rewrite rev_app_distr in H2. cbn [rev app first_ok] in H2. unfold blankb, blank in *. lia.
Qed.

Lemma refused len t : (exists b, set_text len t = Ok b) <-> is_ascii t.
Proof. split; [intros (b & H); exact (proj1 (set_text_inv _ _ _ H))|apply set_text_ok]. Qed.

Lemma names_confused : exists path_len t1 t2 b, t1 <> t2 /\ clean t1 /\ clean t2 /\ is_ascii t1 /\ is_ascii t2 /\
  set_text path_len t1 = Ok b /\ set_text path_len t2 = Ok b /\ maker_path b = t2.
Proof.
  exists 14, (of_str "/data/im1.fits.fz"), (of_str "/data/im1.fits"), (of_str "/data/im1.fits").
  split; [discriminate|]. split; [apply clean_b; reflexivity|]. split; [apply clean_b; reflexivity|].
  split; [apply ascii_b; reflexivity|]. split; [apply ascii_b; reflexivity|]. repeat split; reflexivity.
Qed.

Lemma ex_text_object : object_text (of_str ex_wcs_text).
Proof.
  assert (P : forall c t, existsb (fun d => (c =? d)%char) [quote; "{"; "}"; "["; "]"]%char = false -> balanced t -> balanced (c :: t)).
  { intros c t N B. constructor; [|exact B]. intros I. assert (E : existsb (fun d => (c =? d)%char) [quote; "{"; "}"; "["; "]"]%char = true) by (apply existsb_exists; exists c; split; [exact I|apply Ascii.eqb_refl]). congruence. }
  assert (Q : forall s t, str_body s -> balanced t -> balanced (quote :: s ++ quote :: t)) by (intros; constructor; assumption).
  assert (B : forall s, existsb (fun c => ((c =? quote) || (c =? backslash))%char) s = false -> str_body s).
  { induction s as [|c s IH]; intros N; [constructor|]. cbn [existsb] in N. apply Bool.orb_false_elim in N. destruct N as (N1 & N2). apply Bool.orb_false_elim in N1. destruct N1 as (N1 & N1').
    constructor; [apply Ascii.eqb_neq; exact N1|apply Ascii.eqb_neq; exact N1'|apply IH; exact N2]. }
  exists (of_str """ctype1"": ""RA---TAN"", ""cd"": [1, 0], ""note"": ""a}\""b"""). split; [|reflexivity].
  apply (Q (of_str "ctype1")); [apply B; reflexivity|]. do 2 (apply P; [reflexivity|]).
  apply (Q (of_str "RA---TAN")); [apply B; reflexivity|]. do 2 (apply P; [reflexivity|]).
  apply (Q (of_str "cd")); [apply B; reflexivity|]. do 2 (apply P; [reflexivity|]).
  apply (bal_arr (of_str "1, 0")); [do 4 (apply P; [reflexivity|]); constructor|]. do 2 (apply P; [reflexivity|]).
  apply (Q (of_str "note")); [apply B; reflexivity|]. do 2 (apply P; [reflexivity|]).
  apply (Q (of_str "a}\""b")); [|constructor].
  do 2 (constructor; [discriminate|discriminate|]). apply (str_esc quote). apply B. reflexivity.
Qed.

Lemma ex_world_ok : accepts_json ex_info_world /\ Forall (row_ok 20) ex_info_rows.
Proof.
  split.
  - intros s h H. cbn in H. destruct (String.eqb_spec s ex_wcs_text) as [->|_]; [|discriminate]. split; [discriminate|].
    destruct ex_text_object as (t & Ht & ->). constructor; [exact Ht|constructor].
  - constructor; [|constructor]. split; [vm_compute; discriminate|]. split; [apply clean_b; reflexivity|exact ex_text_object].
Qed.
