(** Proofs about the memory of the C library: the primitives. *)
From Coq Require Import String Permutation Lia ZifyBool ZifyNat.
From Verif Require Import Base BaseLemmas Img Types Reader CLib CMem SpecCMem.
Open Scope Z_scope.

Definition inv (h : heap) (L : list (Z * Z)) : Prop := clean h /\ Permutation (h_live h) L.

(** After [m], [Q]; if it fails, [E]. *)
Definition wp {A} (E : Prop) (m : M A) (Q : A -> heap -> Prop) (h : heap) : Prop :=
  match m h with Ok (r, h') => Q r h' | Err _ => E end.

Arguments wp : simpl never.

Lemma wp_ret {A} E (a : A) (Q : A -> heap -> Prop) h : Q a h -> wp E (ret a) Q h.
Proof. intro H. exact H. Qed.
Lemma wp_bind {A B} E (m : M A) (k : A -> M B) Q h :
  wp E m (fun r h => wp E (k r) Q h) h -> wp E (mbind m k) Q h.
Proof. unfold wp, mbind. destruct (m h) as [[r h']|]; cbn; auto. Qed.
Lemma wp_mono {A} E (m : M A) (Q Q' : A -> heap -> Prop) h :
  wp E m Q h -> (forall r h', Q r h' -> Q' r h') -> wp E m Q' h.
Proof. unfold wp. destruct (m h) as [[r h']|]; auto. Qed.
Lemma wp_err {A} (E : Prop) e (Q : A -> heap -> Prop) h : E -> wp E (fun _ => Err e) Q h.
Proof. intro H. exact H. Qed.

Lemma inv_perm h L L' : inv h L -> Permutation L L' -> inv h L'.
Proof. intros [C P] Q. split; [exact C|]. now transitivity L. Qed.

Lemma inv_nodup h L : inv h L -> NoDup (map fst L).
Proof. intros [[C _] P]. eapply Permutation_NoDup; [apply Permutation_map; exact P|exact C]. Qed.
Lemma inv_lt h L p s : inv h L -> In (p, s) L -> p < h_next h.
Proof.
  intros [[_ C] P] I. apply Permutation_sym in P.
  pose proof (Permutation_in _ P I) as J. rewrite Forall_forall in C. exact (C _ J).
Qed.

Lemma find_nodup (L : list (Z * Z)) p s : NoDup (map fst L) -> In (p, s) L -> find (fun b => fst b =? p) L = Some (p, s).
Proof.
  induction L as [|[q z] L IH]; cbn; [tauto|]. intros N I. apply NoDup_cons_iff in N as [N1 N2].
  destruct I as [I|I].
  - injection I as -> ->. now rewrite Z.eqb_refl.
  - destruct (Z.eqb_spec q p) as [->|D]; [|auto]. exfalso. apply N1. apply in_map_iff. now exists (p, s).
Qed.
Lemma block_size_ok h L p s : inv h L -> In (p, s) L -> block_size h p = Some s.
Proof.
  intros [[C1 C2] P] I. unfold block_size.
  rewrite (find_nodup (h_live h) p s C1); [reflexivity|].
  eapply Permutation_in; [apply Permutation_sym; exact P|exact I].
Qed.

Lemma wp_alloc (E : Prop) n (Q : Z -> heap -> Prop) h L : inv h L -> (0 <= n \/ E) ->
  (forall p h', 0 <= n -> inv h' ((p, n) :: L) -> Q p h') -> wp E (alloc n) Q h.
Proof.
  intros I G K. unfold wp, alloc. destruct (Z.ltb_spec n 0) as [LT|LE]; [destruct G; [lia|assumption]|].
  apply K; [exact LE|]. destruct I as [[C1 C2] P]. split; [split|]; cbn.
  - constructor; [|exact C1]. intro J. apply in_map_iff in J as (b & E1 & J). rewrite Forall_forall in C2.
    specialize (C2 _ J). lia.
  - constructor; [cbn; lia|]. eapply Forall_impl; [|exact C2]. cbn. intros; lia.
  - now constructor.
Qed.

Lemma wp_write (E : Prop) p s n (Q : unit -> heap -> Prop) h L : inv h L -> In (p, s) L -> (n <= s \/ E) ->
  (n <= s -> Q tt h) -> wp E (write p n) Q h.
Proof.
  intros I J G K. unfold wp, write. rewrite (block_size_ok h L p s I J).
  destruct (Z.leb_spec n s) as [LE|LT]; [auto|]. destruct G; [lia|assumption].
Qed.

Lemma filter_all {A} (f : A -> bool) l : Forall (fun x => f x = true) l -> filter f l = l.
Proof. induction 1 as [|x l H F IH]; cbn; [reflexivity|]. now rewrite H, IH. Qed.
Lemma filter_perm {A} (f : A -> bool) l l' : Permutation l l' -> Permutation (filter f l) (filter f l').
Proof.
  induction 1; cbn; auto.
  - destruct (f x); auto.
  - destruct (f x), (f y); auto. constructor.
  - etransitivity; eauto.
Qed.
Lemma NoDup_map_filter {A B} (g : A -> B) f l : NoDup (map g l) -> NoDup (map g (filter f l)).
Proof.
  induction l as [|x l IH]; cbn; [auto|]. intro N. apply NoDup_cons_iff in N as [N1 N2].
  destruct (f x); [|auto]. cbn. constructor; [|auto]. intro I. apply N1.
  apply in_map_iff in I as (y & E & I). apply filter_In in I as [I _]. apply in_map_iff. now exists y.
Qed.
Lemma wp_free (E : Prop) p s (Q : unit -> heap -> Prop) h L : inv h ((p, s) :: L) ->
  (forall h', inv h' L -> Q tt h') -> wp E (free p) Q h.
Proof.
  intros I K. unfold wp, free. rewrite (block_size_ok h _ p s I (or_introl eq_refl)).
  apply K. pose proof (inv_nodup _ _ I) as N. cbn in N. apply NoDup_cons_iff in N as [N1 N2].
  destruct I as [[C1 C2] P]. split; [split|]; cbn.
  - now apply NoDup_map_filter.
  - apply Forall_forall. intros b J. apply filter_In in J as [J _]. rewrite Forall_forall in C2. auto.
  - etransitivity; [apply filter_perm; exact P|]. cbn. rewrite Z.eqb_refl. cbn.
    rewrite filter_all; [reflexivity|]. apply Forall_forall. intros [q z] J. cbn.
    destruct (Z.eqb_spec q p) as [->|]; [|reflexivity]. exfalso. apply N1. apply in_map_iff. now exists (p, z).
Qed.

(** Blocks of one size. *)
Definition blocks (w : Z) (l : list Z) : list (Z * Z) := map (fun p => (p, w)) l.

Lemma wp_allocs (E : Prop) w k (Q : list Z -> heap -> Prop) h L : inv h L -> (0 <= w \/ E) ->
  (forall ps h', length ps = k -> (k <> O -> 0 <= w) -> inv h' (blocks w ps ++ L) -> Q ps h') -> wp E (allocs (repeat w k)) Q h.
Proof.
  revert h L Q. induction k as [|k IH]; intros h L Q I G K; cbn.
  - apply wp_ret. apply K; cbn; auto. congruence.
  - apply wp_bind. eapply wp_alloc; [exact I|exact G|]. intros p h1 W I1. apply wp_bind.
    eapply IH; [exact I1|exact G|]. intros ps h2 LN _ I2. apply wp_ret. apply K; [cbn; lia|auto|].
    eapply inv_perm; [exact I2|]. cbn. symmetry. apply Permutation_middle.
Qed.

Lemma wp_frees (E : Prop) w ps (Q : unit -> heap -> Prop) h L : inv h (blocks w ps ++ L) ->
  (forall h', inv h' L -> Q tt h') -> wp E (frees ps) Q h.
Proof.
  revert h Q. induction ps as [|p ps IH]; intros h Q I K; cbn.
  - apply wp_ret. now apply K.
  - apply wp_bind. cbn in I. eapply wp_free; [exact I|]. intros h1 I1. eapply IH; eauto.
Qed.

Lemma wp_reallocs (E : Prop) w n ps (Q : list Z -> heap -> Prop) h L : inv h (blocks w ps ++ L) -> 0 <= n ->
  (forall ps' h', length ps' = length ps -> inv h' (blocks n ps' ++ L) -> Q ps' h') -> wp E (reallocs ps n) Q h.
Proof.
  intros I N. revert h L Q I. induction ps as [|p ps IH]; intros h L Q I K; cbn.
  - apply wp_ret. now apply K.
  - apply wp_bind. unfold realloc. apply wp_bind. cbn in I. eapply wp_free; [exact I|]. intros h1 I1.
    eapply wp_alloc; [exact I1|now left|]. intros q h2 _ I2. apply wp_bind.
    eapply (IH h2 ((q, n) :: L)).
    + eapply inv_perm; [exact I2|]. apply Permutation_middle.
    + intros qs h3 LN I3. apply wp_ret. apply K; [cbn; lia|].
      eapply inv_perm; [exact I3|]. cbn. symmetry. apply Permutation_middle.
Qed.

Lemma in_blocks w l p : In p l -> In (p, w) (blocks w l).
Proof. intro H. apply in_map_iff. now exists p. Qed.

(** Reading columns. *)
Definition col_reads (t : ctable) (row : Z) (n : string) : bool :=
  match tfind t n with None => false | Some c => cc_num c row end.

Lemma wp_load_cols (E : Prop) t row n s l (Q : bool -> heap -> Prop) h L : inv h L ->
  Forall (fun np => In (snd np, s) L) l -> (n <= s \/ E) ->
  ((l <> [] -> n <= s) -> Q (forallb (col_reads t row) (map fst l)) h) -> wp E (load_cols t row n l) Q h.
Proof.
  intro I. revert Q. induction l as [|[k p] l IH]; intros Q F G K; cbn.
  - apply wp_ret. apply K. congruence.
  - apply wp_bind. unfold load_col. apply wp_bind. apply Forall_cons_iff in F as [F1 F2].
    eapply wp_write; [exact I|exact F1|exact G|]. intro LE. apply wp_ret. cbn in K.
    fold (col_reads t row k).
    destruct (col_reads t row k); cbn in K |- *.
    + apply IH; auto. 
    + apply wp_ret. apply K. auto.
Qed.
