(** Inputs for the examples of PropOwn. *)
From Coq Require Import String Lia ZifyBool.
From Verif Require Import Base Img Types Reader MakerLayout MakerWrite MakerFile SpecFile SpecOwn ExampleData.
From Verif Require BaseLemmas.
Open Scope Z_scope.

(** The rows of ExampleData with other images, no seg maps, and a background: weights,
    masks and scales are kept. *)
Definition ex_own_rows : list imrow :=
  map (fun r => let s := ir_src r in
    mkImrow (ir_image r) (mkSource (src_bytes s)
      (match src_image s with PFile im => PFile (imap (fun x => (x * x)%Q) im) | q => q end) (src_weight s) (src_weight s) PBlank
      (src_bmask s) PBlank PBlank (src_scale s)) (ir_path r) (ir_id r)) ex_rows.

Lemma ex_own : same_sky ex_rows ex_own_rows /\
  Forall2 (fun r1 r2 => own_files (Some 4) TWeight (ir_src r1) (ir_src r2)) ex_rows ex_own_rows.
Proof. split; [reflexivity|]. repeat (constructor; [repeat split; reflexivity|]). constructor. Qed.
Lemma ex_own_ok : Forall (fun r => source_ok (ir_src r)) ex_rows /\ Forall (fun r => source_ok (ir_src r)) ex_own_rows.
Proof.
  split; repeat (apply Forall_cons; [vm_compute; repeat split; discriminate|]); constructor.
Qed.

(** The seg maps are kept (the third image has none), nothing else. *)
Definition ex_seg_only_rows : list imrow :=
  map (fun r => let s := ir_src r in
    mkImrow (ir_image r) (mkSource (src_bytes s) (src_weight s) (src_image s) (src_image s) (src_seg s)
      PBlank PBlank PBlank 5) (ir_path r) (ir_id r)) ex_rows.
Lemma ex_seg_only : same_sky ex_rows ex_seg_only_rows /\ forall u, all_own u TSeg ex_rows ex_seg_only_rows.
Proof.
  split; [reflexivity|]. intros u g r1 r2 G1 G2. unfold ex_seg_only_rows in G2. rewrite BaseLemmas.zget_map, G1 in G2.
  injection G2 as <-. split; reflexivity.
Qed.

(** Objects with neighbours: other images, and seg maps of the coadd only. *)
Definition ex_own_segs : list imrow :=
  map (fun gr => let r := snd gr in let s := ir_src r in
    mkImrow (ir_image r) (mkSource (src_bytes s) (src_weight s) (src_image s) (src_weight s)
      (if fst gr =? 0 then src_seg s else PBlank) (src_bmask s) PBlank PBlank (src_scale s)) (ir_path r) (ir_id r))
    (combine (zrange 3) ex_seg_rows).
Definition ex_own_objs : list obj := [ex_obj 11 1 4 (11#2) (9#2); ex_obj 12 2 2 4 (13#2)].
Lemma ex_own_segs_ok : same_sky ex_seg_rows ex_own_segs /\
  Forall2 (fun r1 r2 => own_files (Some 4) TWeight (ir_src r1) (ir_src r2)) ex_seg_rows ex_own_segs /\
  Forall2 (fun r1 r2 => own_files (Some 4) TSeg (ir_src r1) (ir_src r2)) (firstn 1 ex_seg_rows) (firstn 1 ex_own_segs) /\
  Forall (fun r => source_ok (ir_src r)) ex_seg_rows /\ Forall (fun r => source_ok (ir_src r)) ex_own_segs.
Proof.
  split; [reflexivity|]. split; [repeat (constructor; [repeat split; reflexivity|]); constructor|].
  split; [repeat (constructor; [repeat split; reflexivity|]); constructor|].
  split; repeat (apply Forall_cons; [vm_compute; repeat split; discriminate|]); constructor.
Qed.
