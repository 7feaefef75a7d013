(** get_uberseg only takes weight away, whatever the seg map (C29). *)
From Coq Require Import Lia ZifyBool ZifyNat.
From Verif Require Import Base Img Types Reader BoundsM Composite Fast3tree Uberseg BaseLemmas ImgLemmas.
Open Scope Z_scope.

Lemma px_res_some {A} (im : img A) r c x : px_res im r c = Ok x -> px im r c = Some x.
Proof. unfold px_res. destruct (px im r c); intros H; [injection H as <-; reflexivity|discriminate]. Qed.

Definition taken_away (wt u : img Q) : Prop :=
  forall r c y, px u r c = Some y -> exists x, px wt r c = Some x /\ (y = x \/ y = 0%Q).

Lemma tab2M_away h w f (wt u : img Q) : tab2M h w f = Ok u ->
  (forall r c y, f r c = Ok y -> exists x, px wt r c = Some x /\ (y = x \/ y = 0%Q)) -> taken_away wt u.
Proof.
  intros H K r c y Y. assert (P : 0 <= h /\ 0 <= w).
  { pose proof (px_Some_range _ _ _ _ Y) as G. unfold tab2M in H. apply bind_ok in H. destruct H as (l & _ & H). injection H as <-. cbn in G. lia. }
  apply tab2M_ok in H; [|lia|lia]. destruct H as (I1 & I2 & I3 & I4). pose proof (px_Some_range _ _ _ _ Y) as G.
  destruct (I4 r c) as (y' & F & Y'); [lia|lia|]. rewrite Y in Y'. injection Y' as <-. apply K. exact F.
Qed.

Lemma uberseg_takes fuel f i k fast wt u : get_cweight_cutout f i k false = Ok wt -> get_uberseg fuel f i k fast = Ok u ->
  forall r c y, px u r c = Some y -> exists x, px wt r c = Some x /\ (y = x \/ y = 0%Q).
Proof.
  intros W H. unfold get_uberseg in H. rewrite W in H. cbn [bind] in H. apply bind_ok in H. destruct H as (seg & _ & H).
  destruct (_ =? 2); [injection H as <-; eauto|]. apply bind_ok in H. destruct H as (n & _ & H). destruct fast.
  - unfold uberseg_tree in H. apply bind_ok in H. destruct H as (pts & _ & H). apply bind_ok in H. destruct H as (t & _ & H).
    apply (tab2M_away _ _ _ _ _ H). intros r c y Y. apply bind_ok in Y. destruct Y as (s & _ & Y). apply bind_ok in Y. destruct Y as (w & X & Y).
    apply px_res_some in X. exists w. split; [exact X|]. destruct (s =? n); [injection Y as <-; auto|].
    destruct (_ && _); [injection Y as <-; auto|]. apply bind_ok in Y. destruct Y as (r2 & _ & Y). apply bind_ok in Y. destruct Y as (fd & _ & Y).
    destruct (_ =? -1); [injection Y as <-; auto|]. destruct (negb _); injection Y as <-; auto.
  - unfold uberseg_slow in H. apply (tab2M_away _ _ _ _ _ H). intros r c y Y. apply bind_ok in Y. destruct Y as (q & _ & Y).
    apply bind_ok in Y. destruct Y as (s & _ & Y). apply bind_ok in Y. destruct Y as (w & X & Y). apply px_res_some in X.
    exists w. split; [exact X|]. destruct (negb _); injection Y as <-; auto.
Qed.
