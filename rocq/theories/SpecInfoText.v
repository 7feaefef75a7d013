(** Specification for the text columns (C119). *)
From Coq Require Import String Ascii.
From Verif Require Import Base Img Types MakerLayout WcsSel InfoText.
Open Scope Z_scope.

Definition is_ascii (t : text) : Prop := forall c, In c t -> code c < 128.
(** Neither white space nor NUL at the start or at the end. *)
Definition blank (c : ascii) : Prop := code c = 0 \/ code c = 32 \/ 9 <= code c <= 13.
Definition clean (t : text) : Prop :=
  (forall c t', t = c :: t' -> ~ blank c) /\ (forall c t', t = (t' ++ [c])%list -> ~ blank c).
Definition no_nul_end (t : text) : Prop := forall c t', t = (t' ++ [c])%list -> code c <> 0.

Definition quote : ascii := """"%char.
Definition backslash : ascii := "\"%char.

(** The inside of a JSON string. *)
Inductive str_body : text -> Prop :=
| str_nil : str_body []
| str_char c t : c <> quote -> c <> backslash -> str_body t -> str_body (c :: t)
| str_esc c t : str_body t -> str_body (backslash :: c :: t).

(** Texts whose strings end and whose brackets match outside of strings; every
    JSON text is one. *)
Inductive balanced : text -> Prop :=
| bal_nil : balanced []
| bal_char c t : ~ In c [quote; "{"; "}"; "["; "]"]%char -> balanced t -> balanced (c :: t)
| bal_str s t : str_body s -> balanced t -> balanced (quote :: s ++ quote :: t)%list
| bal_obj s t : balanced s -> balanced t -> balanced ("{"%char :: s ++ "}"%char :: t)%list
| bal_arr s t : balanced s -> balanced t -> balanced ("["%char :: s ++ "]"%char :: t)%list.

(** The text of a JSON object. *)
Definition object_text (t : text) : Prop := exists s, balanced s /\ t = ("{"%char :: s ++ ["}"%char])%list.

(** json.loads accepts nothing else. *)
Definition accepts_json (W : world) : Prop :=
  forall s h, json_loads W s = Ok h -> s <> ""%string /\ balanced (of_str s).

(** Names that fit, astrometry as the text of an object. *)
Definition row_ok (path_len : Z) (row : irow) : Prop :=
  zlen (of_str (i_path row)) <= path_len /\ clean (of_str (i_path row)) /\ object_text (of_str (i_text row)).

Definition ex_wcs_text : string := "{""ctype1"": ""RA---TAN"", ""cd"": [1, 0], ""note"": ""a}\""b""}".

(** A world in which the text above is the astrometry of a 4 by 4 image. *)
Definition ex_info_sky : sky := mkSky (fun _ _ _ _ => true) (fun ra dec _ => (ra, dec)) (fun _ _ _ => (1, 0, 0, 1)%Q).
Definition ex_info_world : world :=
  mkWorld (fun _ _ => Err FitsError)
    (fun s => if String.eqb s ex_wcs_text then Ok (mkHeader None (Some (4, 4)) ex_info_sky) else Err ValueError)
    (fun h => let* n := match h_n h with Some n => Ok n | None => Err KeyError end in Ok (h_sky h, n)).
Definition ex_info_rows : list irow := [mkIrow "/data/im1.fits" 1 0 ex_wcs_text].
