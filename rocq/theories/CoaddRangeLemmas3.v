(** Ranges that count from the end: witnesses. *)
From Coq Require Import Lia ZifyBool ZifyNat.
From Verif Require Import Base BaseLemmas Img Types Reader Composite MakerWrite Coadd CoaddRange SpecFile SpecCoadd SpecCoaddExt SpecCoaddRange ExampleData ExampleCoadd ExampleCoaddRange
  CoaddLemmas6 CoaddLemmas7 CoaddRangeLemmas2.
Open Scope Z_scope.

Lemma ex_shapes f : stamp_shapes f (ex_coadder f).
Proof. apply coadder_stamps; [apply ex_reject_ok|apply ex_stamps; reflexivity]. Qed.

Lemma ex_ends f : ex_cfile = Ok f -> counts_from_end f (ex_coadder f).
Proof.
  intros E. apply coadder_end. assert (H : (let* f := ex_cfile in Ok (m_number_col f)) = Ok true) by (vm_compute; reflexivity). rewrite E in H. cbn [bind] in H. congruence.
Qed.
Lemma number_refuted : exists f j, 0 <= j < zlen (m_cat f) /\ get_number f j = Ok (j + 1) /\
  exists n, get_number f (j - zlen (m_cat f)) = Ok n /\ n <= 0.
Proof.
  destruct ex_cfile as [f|e] eqn:E; [|exfalso; vm_compute in E; discriminate E]. exists (ex_unnumbered f), 0.
  assert (H : (let* f := ex_cfile in Ok (zlen (m_cat f))) = Ok 4) by (vm_compute; reflexivity). rewrite E in H. cbn [bind] in H. injection H as H.
  cbn [ex_unnumbered m_cat]. split; [lia|]. split; [reflexivity|]. exists (0 - zlen (m_cat f) + 1). split; [reflexivity|lia].
Qed.
Lemma twice_refuted : exists f ct tp junk pjunk coadder rg x, stamp_shapes f coadder /\ counts_from_end f coadder /\ range_names f rg /\
  write_coadds_any f ct tp junk pjunk coadder None = Ok x /\ write_coadds_any f ct tp junk pjunk coadder rg = Err FitsError.
Proof.
  destruct ex_cfile as [f|e] eqn:E; [|exfalso; vm_compute in E; discriminate E].
  assert (H : (let* f := ex_cfile in Ok (zlen (m_cat f))) = Ok 4) by (vm_compute; reflexivity). rewrite E in H. cbn [bind] in H. injection H as H.
  assert (G : (let* f := ex_cfile in let* x := ex_range f None in Ok (zlen (fst x))) = Ok 4) by (vm_compute; reflexivity). rewrite E in G. cbn [bind] in G.
  assert (K : (let* f := ex_cfile in ex_range f (Some (-4, 4))) = Err FitsError) by (vm_compute; reflexivity). rewrite E in K. cbn [bind] in K.
  destruct (ex_range f None) as [x|] eqn:X; [|discriminate G]. exists f, [TImage; TWeight; TSeg; TBmask], 40, ex_junk, (fun _ => 0%Q), (ex_coadder f), (Some (-4, 4)), x. split; [apply ex_shapes|]. split; [apply ex_ends; exact E|]. split; [cbn; lia|]. split; [exact X|exact K].
Qed.
