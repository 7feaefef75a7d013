(** PSF objects whose shapes are not announced, or are announced as rendered (C14). *)
From Coq Require Import Lia.
From Verif Require Import Base Img Types Reader MakerLayout MakerWrite MakerFile SpecFile
  BaseLemmas MakerLemmas4.
Open Scope Z_scope.

Lemma honest_shapes k types rows ps input junk pjunk f0 :
  make_meds k types rows None input junk pjunk = Ok f0 -> zlen ps = zlen rows -> 1 <= k_njob k ->
  (forall p r c col, In p ps -> img_ok (p_rec p r c col)) ->
  (forall p g r c col, In p ps -> p_rec_shape p = Some g ->
     g r c col = (nr (p_rec p r c col), nc (p_rec p r c col))) ->
  exists f, make_meds k types rows (Some ps) input junk pjunk = Ok f.
Proof.
  intros H L J O G.
  assert (E : forall p r c col, In p ps -> psf_shape p r c col = (nr (p_rec p r c col), nc (p_rec p r c col))).
  { intros p r c col Hp. unfold psf_shape. destruct (p_rec_shape p) as [g|] eqn:Eg; [exact (G p g r c col Hp Eg)|reflexivity]. }
  apply (make_meds_psf k types rows ps input junk pjunk f0 H L J O).
  - intros p r c col Hp. rewrite (E p r c col Hp). cbn. destruct (O p r c col Hp) as (A & B & _). split; assumption.
  - intros iobj icut o s p _ Hp col. apply E. eapply zget_In. exact Hp.
Qed.
