(** Orientation of the cutouts in the combined plot of meds-view. *)
From Coq Require Import Lia Lqa ZifyBool ZifyNat.
From Verif Require Import Base BaseLemmas Img ImgLemmas Types View SpecView ViewLemmas ViewLemmas4.
Open Scope Z_scope.

Lemma separate_plot im : img_ok im -> 0 < nr im -> 0 < nc im ->
  exists s m, view None false None im = ([], Ok s) /\ nr s = nc im /\ nc s = nr im /\
    forall r c x, px im r c = Some x -> px s c r = Some (fclip (fmul x (finv m))).
Proof.
  intros O H W. destruct (view_ok None false None im (nr im) (nc im) O eq_refl eq_refl H W) as (s & E & A & B & m & _ & P). exists s, m. auto.
Qed.

Lemma combined_plot (l : list (img fv)) h w : l <> [] -> all_shape h w l ->
  exists tot s m, make_combined_mosaic l = Ok tot /\ view None false None tot = ([], Ok s) /\
    forall k im, zget l k = Some im -> exists x0 y0, 0 <= x0 /\ x0 + w <= nr s /\ 0 <= y0 /\ y0 + h <= nc s /\
      forall r c x, px im r c = Some x -> px s (x0 + c) (y0 + (h - 1 - r)) = Some (fclip (fmul x (finv m))).
Proof.
  intros HL S. destruct (combined_cells l h w HL S) as (rows & cols & tot & G & E & O & NR & NC & P & _).
  assert (HN : 1 <= zlen l) by (destruct l; [congruence|]; rewrite zlen_cons; pose proof (zlen_nonneg l); lia).
  destruct (grid_facts (zlen l) HN) as (rows' & cols' & G' & R1 & C1 & L & _). rewrite G in G'. injection G' as <- <-.
  destruct S as (PH & PW & F). rewrite Forall_forall in F.
  destruct (separate_plot tot O ltac:(nia) ltac:(nia)) as (s & m & EV & N1 & N2 & PS).
  exists tot, s, m. split; [exact E|]. split; [exact EV|]. intros k im Hk. destruct (P k im Hk) as (a & b & RC & PK).
  pose proof (zget_Some_range _ _ _ Hk). destruct (rowcol_eq rows cols k C1 ltac:(lia)) as (RC' & A & B). rewrite RC in RC'. injection RC' as -> ->.
  set (a := k / cols) in *. set (b := k mod cols) in *. clearbody a b.
  exists (b * w), ((rows - 1 - a) * h). split; [nia|]. split; [nia|]. split; [nia|]. split; [nia|].
  intros r c x Hx. destruct (F im (zget_In _ _ _ Hk)) as (_ & I2 & I3). apply px_Some_range in Hx as R. rewrite I2, I3 in R.
  rewrite (PS (rows * h - 1 - (a * h + r)) (b * w + c) x); [reflexivity|] || (rewrite <- (PS (rows * h - 1 - (a * h + r)) (b * w + c) x); [f_equal; lia|]).
  rewrite PK by lia. exact Hx.
Qed.
