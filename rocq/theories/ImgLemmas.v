From Coq Require Import Lia ZifyBool ZifyNat.
From Verif Require Import Base BaseLemmas Img.
Ltac Zify.zify_post_hook ::= Z.div_mod_to_equations.

Lemma flat_div h w r c : 0 <= r < h -> 0 <= c < w -> (r * w + c) / w = r /\ (r * w + c) mod w = c.
Proof.
  intros Hr Hc. split.
  - rewrite Z.add_comm, Z.div_add by lia. rewrite Z.div_small by lia. lia.
  - rewrite Z.add_comm, Z.mod_add by lia. apply Z.mod_small; lia.
Qed.

Lemma flat_range h w r c : 0 <= r < h -> 0 <= c < w -> 0 <= r * w + c < h * w.
Proof. intros; nia. Qed.

Lemma unflat h w p : 0 <= p < h * w -> 0 <= h -> 0 <= w ->
  0 <= p / w < h /\ 0 <= p mod w < w /\ p = (p / w) * w + p mod w.
Proof.
  intros Hp Hh Hw. assert (0 < w) by nia.
  pose proof (Z.div_mod p w ltac:(lia)). pose proof (Z.mod_pos_bound p w ltac:(lia)).
  repeat split; try nia.
Qed.

Lemma px_Some_range {A} (im : img A) r c a :
  px im r c = Some a -> 0 <= r < nr im /\ 0 <= c < nc im.
Proof. unfold px. destruct (_ && _) eqn:E; [|discriminate]. intros _. lia. Qed.

Lemma px_in {A} (im : img A) r c : img_ok im -> 0 <= r < nr im -> 0 <= c < nc im ->
  exists a, px im r c = Some a.
Proof.
  intros (H1 & H2 & H3) Hr Hc. unfold px. destruct (_ && _) eqn:E; [|lia].
  apply zget_range_Some. rewrite H3. apply flat_range; assumption.
Qed.

Lemma px_off {A} (im : img A) r c : ~ (0 <= r < nr im /\ 0 <= c < nc im) -> px im r c = None.
Proof. intros H. unfold px. destruct (_ && _) eqn:E; [lia|reflexivity]. Qed.

Lemma img_ext {A} (a b : img A) : img_ok a -> img_ok b -> nr a = nr b -> nc a = nc b ->
  (forall r c, 0 <= r < nr a -> 0 <= c < nc a -> px a r c = px b r c) -> a = b.
Proof.
  intros (A1 & A2 & A3) (B1 & B2 & B3) Hr Hc H.
  destruct a as [h w d], b as [h' w' d']; simpl in *. subst h' w'. f_equal.
  apply list_zget_ext; [lia|]. intros i Hi. rewrite A3 in Hi.
  destruct (unflat h w i) as (U1 & U2 & U3); [lia|lia|lia|].
  specialize (H (i / w) (i mod w) U1 U2). unfold px in H; simpl in H.
  destruct (_ && _) eqn:E; [|lia]. rewrite <- U3 in H. exact H.
Qed.

Lemma tab2_ok {A} h w (f : Z -> Z -> A) : 0 <= h -> 0 <= w -> img_ok (tab2 h w f).
Proof.
  intros Hh Hw. unfold img_ok, tab2; simpl. rewrite zlen_map, zlen_zrange by nia. lia.
Qed.

Lemma px_tab2 {A} h w (f : Z -> Z -> A) r c :
  px (tab2 h w f) r c =
  if (0 <=? r) && (r <? h) && (0 <=? c) && (c <? w) then Some (f r c) else None.
Proof.
  unfold px, tab2; simpl. destruct (_ && _) eqn:E; [|reflexivity].
  rewrite zget_map, zget_zrange by (apply flat_range; lia). simpl.
  destruct (flat_div h w r c) as [D M]; [lia|lia|]. rewrite D, M. reflexivity.
Qed.

Lemma tab2M_ok {A} h w (f : Z -> Z -> res A) im : 0 <= h -> 0 <= w -> tab2M h w f = Ok im ->
  img_ok im /\ nr im = h /\ nc im = w /\
  forall r c, 0 <= r < h -> 0 <= c < w -> exists a, f r c = Ok a /\ px im r c = Some a.
Proof.
  intros Hh Hw H. unfold tab2M in H. apply bind_ok in H. destruct H as (d & Hd & E).
  inversion E; subst; clear E. pose proof (mapM_ok_length _ _ _ Hd) as HL.
  rewrite zrange_length in HL. simpl. repeat split; simpl; try assumption.
  - unfold zlen. nia.
  - intros r c Hr Hc. pose proof (flat_range h w r c Hr Hc) as Hp.
    destruct (mapM_ok_nth _ _ _ (Z.to_nat (r * w + c)) (r * w + c) Hd) as (a & Ha & Hn).
    { rewrite zrange_nth by lia. f_equal. lia. }
    destruct (flat_div h w r c Hr Hc) as [D M]. rewrite D, M in Ha.
    exists a. split; [exact Ha|]. unfold px; simpl.
    destruct (_ && _) eqn:E; [|lia]. unfold zget. destruct (r * w + c <? 0) eqn:E1; [lia|exact Hn].
Qed.

Lemma tab2M_tab2 {A} h w (f : Z -> Z -> res A) (g : Z -> Z -> A) : 0 <= h -> 0 <= w ->
  (forall r c, 0 <= r < h -> 0 <= c < w -> f r c = Ok (g r c)) ->
  tab2M h w f = Ok (tab2 h w g).
Proof.
  intros Hh Hw H. unfold tab2M, tab2.
  rewrite (mapM_map_ok _ (fun p => g (p / w) (p mod w))); [reflexivity|].
  intros p Hp. apply In_zrange in Hp. destruct (unflat h w p Hp Hh Hw) as (U1 & U2 & _).
  apply H; assumption.
Qed.

Lemma tab2M_exists {A} h w (f : Z -> Z -> res A) : 0 <= h -> 0 <= w ->
  (forall r c, 0 <= r < h -> 0 <= c < w -> exists a, f r c = Ok a) ->
  exists im, tab2M h w f = Ok im.
Proof.
  intros Hh Hw H. unfold tab2M.
  assert (Hd : exists d, mapM (fun p => f (p / w) (p mod w)) (zrange (h * w)) = Ok d).
  { assert (Hin : forall p, In p (zrange (h * w)) -> exists a, f (p / w) (p mod w) = Ok a).
    { intros p Hp. apply In_zrange in Hp. destruct (unflat h w p Hp Hh Hw) as (U1 & U2 & _).
      apply H; assumption. }
    revert Hin. generalize (zrange (h * w)). intros l; induction l as [|p l IH]; intros Hin; simpl.
    - eexists; reflexivity.
    - destruct (Hin p) as (a & Ha); [left; reflexivity|]. rewrite Ha; simpl.
      destruct IH as (d & Hd); [intros q Hq; apply Hin; right; exact Hq|].
      rewrite Hd; simpl. eexists; reflexivity. }
  destruct Hd as (d & Hd). rewrite Hd; simpl. eexists; reflexivity.
Qed.

Lemma imap_ok {A B} (f : A -> B) im : img_ok im -> img_ok (imap f im).
Proof. unfold img_ok, imap; simpl. rewrite zlen_map. auto. Qed.

Lemma px_imap {A B} (f : A -> B) im r c : px (imap f im) r c = option_map f (px im r c).
Proof. unfold px, imap; simpl. destruct (_ && _); [apply zget_map|reflexivity]. Qed.

Lemma reshape_ok {A} (xs : list A) h w im :
  reshape xs h w = Ok im -> im = mkImg h w xs /\ img_ok im.
Proof.
  unfold reshape. destruct (_ && _) eqn:E; [|discriminate]. intros H; inversion H; subst.
  split; [reflexivity|]. unfold img_ok; simpl. lia.
Qed.

Lemma full_ok {A} h w (v : A) im : full h w v = Ok im ->
  0 <= h /\ 0 <= w /\ im = tab2 h w (fun _ _ => v).
Proof.
  unfold full. destruct (_ && _) eqn:E; [|discriminate]. intros H; inversion H; subst.
  repeat split; lia.
Qed.
