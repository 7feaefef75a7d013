(** Which astrometry belongs to an image.  Definitions only. *)
From Coq Require Import String.
From Verif Require Import Base Img Types BoundsM MakerLayout WcsSel.
Open Scope Z_scope.

(** The image with these transformations, size (ncol, nrow) and offset. *)
Definition picture (s : sky) (n : Z * Z) (o : Q) : image :=
  mkImage (mkWcs (snd n) (fst n) (sk_cut s n o) (sk_pos s) (sk_jac s)) o.

(** The size of the image in a header: that of the uncompressed image if it is compressed. *)
Inductive sized : header -> Z * Z -> Prop :=
| S_compressed n m s : sized (mkHeader (Some n) m s) n
| S_plain n s : sized (mkHeader None (Some n) s) n.

(** Which WCS the psf object of an image has, if any; [h] are the objects in memory. *)
Inductive psf_sky (psf : option (list psfw)) (h : heap) (i : Z) : sky -> Prop :=
| P_same l r w : psf = Some l -> zget l i = Some (Same r) -> nth_error h r = Some w -> psf_sky psf h i (wo_sky w)
| P_copy l w : psf = Some l -> zget l i = Some (Copy w) -> psf_sky psf h i (wo_sky w).
Definition psf_silent (psf : option (list psfw)) (i : Z) : Prop :=
  psf = None \/ exists l, psf = Some l /\ zget l i = Some NoWcs.

(** Image number [i] as it must be: the WCS of the psf with the size of the image file,
    else the text in the column wcs, else the header of the image; its own offset. *)
Inductive own (W : world) (psf : option (list psfw)) (has_text : bool) (rows : list irow) (h : heap) (i : Z)
  : image -> Prop :=
| O_psf row s hdr n : zget rows i = Some row -> psf_sky psf h i s ->
    read_header W (i_path row) (i_ext row) = Ok hdr -> sized hdr n ->
    own W psf has_text rows h i (picture s n (i_offset row))
| O_text row data s n : zget rows i = Some row -> psf_silent psf i -> has_text = true ->
    json_loads W (i_text row) = Ok data -> construct W data = Ok (s, n) ->
    own W psf has_text rows h i (picture s n (i_offset row))
| O_header row data s n : zget rows i = Some row -> psf_silent psf i -> has_text = false ->
    read_header W (i_path row) (i_ext row) = Ok data -> construct W data = Ok (s, n) ->
    own W psf has_text rows h i (picture s n (i_offset row)).

(** psf_data has one element per image and its objects exist. *)
Definition psf_ok (psf : option (list psfw)) (rows : list irow) (h : heap) : Prop :=
  match psf with
  | None => True
  | Some l => zlen l = zlen rows /\ forall i r, zget l i = Some (Same r) -> (r < length h)%nat
  end.

Definition shares (psf : option (list psfw)) (i : Z) (r : ref) : Prop :=
  exists l, psf = Some l /\ zget l i = Some (Same r).

(** * Example data: two images of different size whose psfs share one WCS object,
      which belongs to neither size. *)
Definition ex_sky (k : Z) : sky :=
  mkSky (fun n _ _ _ => true) (fun ra dec _ => (ra + inject_Z k, dec)%Q) (fun _ _ _ => (1, 0, 0, 1))%Q.
Definition ex_world : world :=
  mkWorld (fun p e => if String.eqb p "a" then Ok (mkHeader (Some (40, 30)) (Some (8, 4000)) (ex_sky 1))
                      else if String.eqb p "b" then Ok (mkHeader None (Some (20, 10)) (ex_sky 2))
                      else Err FitsError)%string
          (fun t => Ok (mkHeader None (Some (7, 7)) (ex_sky 3)))
          (fun d => match h_n d with Some n => Ok (h_sky d, n) | None => Err KeyError end).
Definition ex_irows : list irow := [mkIrow "a" 0 1 ""; mkIrow "b" 0 0 ""]%string.
Definition ex_heap : heap := [mkWobj (ex_sky 5) (1, 1) None].
Definition ex_psfw : list psfw := [Same 0%nat; Same 0%nat].
