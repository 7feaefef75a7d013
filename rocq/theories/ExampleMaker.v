(** Sources and rows for the examples on the maker, and facts on the data of
    ExampleData. *)
From Coq Require Import String Lia.
From Verif Require Import Base Img Types MakerLayout MakerWrite MakerFile SpecLayout SpecFile ExampleData.
From Verif Require ImgLemmas.
Open Scope Z_scope.

Definition C16_source : source :=
  mkSource true (PFile (mkImg 1 3 [10; 20; 30]%Q)) (PFile (mkImg 1 3 [1; 2; 3]%Q)) (PFile (mkImg 1 3 [8; 12; -16]%Q))
    PBlank (PFile (mkImg 1 3 [0; 5; 2])) PBlank PBlank 2.

(** One image without background and masks. *)
Definition C17_row (w : path Q) (seg : path Z) : imrow :=
  mkImrow (mkImage (ex_wcs 9 10 0 0) 1)
    (mkSource true (PFile (ex_qimg 9 10 0)) PBlank w seg PBlank PBlank PBlank 1) 70 7.

Lemma ex_objs_boxes : Forall (fun o => 1 <= o_box o) ex_objs.
Proof. repeat constructor; vm_compute; discriminate. Qed.

Lemma ex_rows_ok : Forall (fun r => source_ok (ir_src r)) ex_rows.
Proof. repeat constructor; vm_compute; discriminate. Qed.

Lemma ex_psfs_ok p r c col : In p ex_psfs ->
  img_ok (p_rec p r c col) /\ psf_shape p r c col = (nr (p_rec p r c col), nc (p_rec p r c col)).
Proof.
  intros H. assert (X : forall n, 1 <= n -> img_ok (p_rec (ex_psf n) r c col)).
  { intros n Hn. assert (0 <= Qfloor r mod 3 < 3) by (apply Z.mod_pos_bound; lia). cbn [p_rec ex_psf]. apply ImgLemmas.tab2_ok; lia. }
  destruct H as [<-|[<-|[<-|[]]]]; (split; [apply X; lia|reflexivity]).
Qed.
