(** Inputs for the examples of PropBits. *)
From Coq Require Import String Lia ZifyBool.
From Verif Require Import Base Img Types Reader MakerLayout MakerWrite MakerFile SpecFile SpecBits ExampleData.
From Verif Require BaseLemmas ImgLemmas.
Open Scope Z_scope.

(** The unusable bit of ExampleData is 4; here the bits 8 and 16 of all masks are switched. *)
Definition ex_switch (p : path Z) : path Z :=
  match p with PFile im => PFile (imap (fun x => Z.lxor x 24) im) | _ => p end.
Definition ex_bits_rows : list imrow :=
  map (fun r => let s := ir_src r in
    mkImrow (ir_image r) (mkSource (src_bytes s) (src_image s) (src_bkg s) (src_weight s) (src_seg s)
      (ex_switch (src_bmask s)) (src_ormask s) (src_noise s) (src_scale s)) (ir_path r) (ir_id r)) ex_rows.

Lemma ex_land x : Z.land (Z.lxor x 24) 4 = Z.land x 4.
Proof.
  apply Z.bits_inj'. intros n N. rewrite !Z.land_spec, Z.lxor_spec. destruct (Z.eq_dec n 2) as [->|E].
  - change (Z.testbit 24 2) with false. rewrite Bool.xorb_false_r. reflexivity.
  - change 4 with (2 ^ 2). rewrite (Z.pow2_bits_false 2 n) by lia. rewrite !Bool.andb_false_r. reflexivity.
Qed.
Lemma ex_switched u p : (forall bad, u = Some bad -> bad = 4) -> same_flagged u p (ex_switch p).
Proof.
  intros U. destruct p as [| |im]; cbn; [exact I|exact I|]. split; [reflexivity|]. split; [reflexivity|].
  intros bad B r c x y X Y. rewrite ImgLemmas.px_imap, X in Y. injection Y as <-. rewrite (U _ B), ex_land. reflexivity.
Qed.
Lemma ex_bits : bits_agree (k_unusable ex_conf) ex_rows ex_bits_rows.
Proof.
  split; [reflexivity|]. intros g r1 r2 G1 G2. unfold ex_bits_rows in G2. rewrite BaseLemmas.zget_map, G1 in G2.
  injection G2 as <-. split; [reflexivity|]. unfold other_bits. cbn [ir_src src_bytes src_image src_bkg src_weight src_seg src_bmask src_ormask src_noise src_scale].
  repeat (split; [reflexivity|]). apply ex_switched. intros bad B. injection B as <-. reflexivity.
Qed.
Lemma ex_bits_ok : Forall (fun r => source_ok (ir_src r)) ex_rows /\ Forall (fun r => source_ok (ir_src r)) ex_bits_rows.
Proof.
  split; repeat (apply Forall_cons; [vm_compute; repeat split; discriminate|]); constructor.
Qed.
