(** Inputs for the examples of PropLocal. *)
From Coq Require Import String Lia.
From Verif Require Import Base Img Types Reader MakerLayout MakerWrite MakerFile
  SpecFile SpecExtract SpecLocal ExampleData.
From Verif Require BaseLemmas ImgLemmas.
Open Scope Z_scope.

Definition ex_recolour (a b c : Q) (o : obj) : obj :=
  mkObj (o_id o) (o_number o) (o_box o) (o_ra o) (o_dec o) a b c
        (o_psf_nr o) (o_psf_nc o) (o_psf_box o) (o_ncut o) (o_slots o).

(** A wcs whose rows move with the colour. *)
Definition ex_colour_wcs (nrow ncol : Z) (dr dc : Q) : wcs :=
  mkWcs nrow ncol (fun ra _ => Qle_bool ra 100)
    (fun ra dec col => (Qred (ra + dc), Qred (dec + dr + match col with Some x => x | None => 0 end)))
    (fun x y _ => (1#4, 0, 0, 1#4)%Q).
Definition ex_colour_rows : list imrow :=
  [ mkImrow (mkImage (ex_colour_wcs 9 10 0 0) 1) (ex_src 9 10 1000 (PFile (ex_zimg 9 10 0))) 70 7;
    mkImrow (mkImage (ex_colour_wcs 6 7 (-2) (-1)) 1) (ex_src 6 7 2000 (PFile (ex_zimg 6 7 5))) 71 8 ].
(** A psf of one pixel that holds the colour, 0 without one. *)
Definition ex_colour_psf : psfobj :=
  mkPsf (fun _ _ col => mkImg 1 1 [match col with Some x => x | None => 0%Q end]) None (fun _ _ => (0, 0)%Q).
(** Colours used by the wcs of the images after the coadd and by the psf of the coadd. *)
Definition ex_colour_conf : mconf :=
  mkMconf (mkLconf true true false false 1 None true true false true)
          (mkPconf true true false) None [] false 2000 true.
Definition ex_colour_make (colour psf_colour : Q) : res medsfile :=
  make_meds ex_colour_conf ex_types ex_colour_rows (Some [ex_colour_psf; ex_colour_psf])
    [ex_recolour colour 77 psf_colour (ex_obj 11 1 2 (11#2) (9#2))] ex_junk (fun _ => 0%Q).

Lemma ex_psfs_fit : psfs_fit (Some ex_psfs).
Proof.
  intros ps p r c col E H. injection E as <-. cbn in H.
  assert (X : forall n, 1 <= n -> img_ok (p_rec (ex_psf n) r c col) /\ 0 < nr (p_rec (ex_psf n) r c col) * nc (p_rec (ex_psf n) r c col)).
  { intros n Hn. assert (0 <= Qfloor r mod 3 < 3) by (apply Z.mod_pos_bound; lia). cbn [p_rec ex_psf nr nc tab2]. split; [apply ImgLemmas.tab2_ok; lia|]. apply Z.mul_pos_pos; lia. }
  destruct H as [<-|[<-|[<-|[]]]]; apply X; lia.
Qed.

Lemma ex_psfs_agree : psfs_agree 2 (Some (firstn 2 ex_psfs)) (Some ex_psfs).
Proof. intros f Hf. assert (f = 0 \/ f = 1) as [->| ->] by lia; reflexivity. Qed.
