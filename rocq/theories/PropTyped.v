(** Property theorems on the number types of the mosaics: C90 to C92. *)
From Coq Require Import String Qabs Qpower.
From Verif Require Import Base Img Types Reader MakerLayout MakerWrite MakerFile SpecFile Typed SpecTyped ExampleData ExampleTyped.
From Verif Require TypedLemmas7 TypedLemmas8 TypedLemmas9.
Open Scope Z_scope.

(** * C90: masks and segmentation numbers survive the conversion when they fit. *)
Theorem C90_integers_partial : forall R ub c u kinds types rows input junk f, Forall (fun o => 1 <= o_box o) input -> Forall (fun r => tsource_ok (tr_src r)) rows ->
  make_typed R ub c u kinds types rows input junk = Ok f ->
  forall iobj icut o s row t sg bits a, stored f iobj icut o s -> zget rows (s_file s) = Some row -> tf_ext f t <> None ->
    t = TSeg \/ t = TBmask -> kinds t = KI sg bits -> 1 <= bits -> tfile_of (tr_src row) t = QFile a -> int_file (QFile a) ->
    exists cut, get_cutout_typed f iobj icut t = Ok cut /\ nr cut = o_box o /\ nc cut = o_box o /\
      forall r k, 0 <= r < o_box o -> 0 <= k < o_box o -> exists z, px cut r k = Some (NI z) /\ is_int sg bits z /\
        (px (a_im a) (s_osr s + r) (s_osc s + k) = None -> (t = TSeg -> z = 0) /\ (t = TBmask -> is_int sg bits (2 ^ 30) -> z = 2 ^ 30)) /\
        (forall n, px (a_im a) (s_osr s + r) (s_osc s + k) = Some (NI n) ->
           (is_int sg bits n -> z = n) /\ forall i, 0 <= i < bits -> Z.testbit z i = Z.testbit n i).
Proof. exact TypedLemmas8.typed_integers. Qed.
Print Assumptions C90_integers_partial.

(** False for files of 64 bits with the default types: a flagged pixel becomes
    unflagged and a segmentation number becomes that of the sky. *)
Theorem C90_refuted : exists R ub c u types rows input junk f iobj icut o s row a b ca cb r k n m,
  Forall (fun o => 1 <= o_box o) input /\ Forall (fun r => tsource_ok (tr_src r)) rows /\
  make_typed R ub c u default_kinds types rows input junk = Ok f /\ stored f iobj icut o s /\ zget rows (s_file s) = Some row /\
  ts_bmask (tr_src row) = QFile a /\ ts_seg (tr_src row) = QFile b /\
  px (a_im a) (s_osr s + r) (s_osc s + k) = Some (NI n) /\ n <> 0 /\ get_cutout_typed f iobj icut TBmask = Ok ca /\ px ca r k = Some (NI 0) /\
  px (a_im b) (s_osr s + r) (s_osc s + k) = Some (NI m) /\ m <> 0 /\ get_cutout_typed f iobj icut TSeg = Ok cb /\ px cb r k = Some (NI 0).
Proof.
  exists numpy1, ex_ub, (k_l ex_conf), (Some 4), ex_types, ex_trows3, ex_tobjs, ex_tjunk. eexists. exists 0, 0. do 7 eexists. exists 1, 1, (2 ^ 40), (2 ^ 32).
  split; [repeat constructor; vm_compute; discriminate|]. split; [exact TypedLemmas9.ex_trows3_ok|]. split; [vm_compute; reflexivity|].
  split; [split; [vm_compute; reflexivity|split; [vm_compute; split; [discriminate|reflexivity]|vm_compute; reflexivity]]|].
  split; [vm_compute; reflexivity|]. split; [vm_compute; reflexivity|]. split; [vm_compute; reflexivity|]. split; [vm_compute; reflexivity|]. split; [discriminate|].
  split; [vm_compute; reflexivity|]. split; [vm_compute; reflexivity|]. split; [vm_compute; reflexivity|]. split; [discriminate|].
  split; [vm_compute; reflexivity|vm_compute; reflexivity].
Qed.
Print Assumptions C90_refuted.

(** The hypotheses of [C90_integers_partial] and [C91_...] hold of this file. *)
Example C90_example : Forall (fun o => 1 <= o_box o) ex_objs /\ Forall (fun r => tsource_ok (tr_src r)) ex_trows /\
  exists f o s cut, ex_tmake numpy2 = Ok f /\ stored f 1 0 o s /\ s_file s = 0 /\ tf_ext f TBmask <> None /\ get_cutout_typed f 1 0 TBmask = Ok cut /\
    px cut 0 1 = Some (NI (2 ^ 30)) /\ px cut 2 2 = Some (NI 21).
Proof.
  split; [repeat constructor; vm_compute; discriminate|]. split; [exact TypedLemmas9.ex_trows_ok|]. do 4 eexists. split; [vm_compute; reflexivity|].
  split; [split; [vm_compute; reflexivity|split; [vm_compute; split; [discriminate|reflexivity]|vm_compute; reflexivity]]|].
  split; [vm_compute; reflexivity|]. split; [vm_compute; discriminate|]. split; [vm_compute; reflexivity|]. split; vm_compute; reflexivity.
Qed.

(** * C91: image and weight pixels are the calibrated ones to single precision. *)
Theorem C91_image : forall R ub c u kinds types rows input junk f, Forall (fun o => 1 <= o_box o) input -> Forall (fun r => tsource_ok (tr_src r)) rows ->
  make_typed R ub c u kinds types rows input junk = Ok f ->
  forall iobj icut o s row, stored f iobj icut o s -> zget rows (s_file s) = Some row -> tf_ext f TImage <> None ->
    ~ int_file (ts_bkg (tr_src row)) ->
    exists cut, get_cutout_typed f iobj icut TImage = Ok cut /\ nr cut = o_box o /\ nc cut = o_box o /\
      forall r k, 0 <= r < o_box o -> 0 <= k < o_box o -> exists p, px cut r k = Some p /\
        ((forall x, ~ file_px (ts_image (tr_src row)) (s_osr s + r) (s_osc s + k) x) -> p = NF (Fin 0)) /\
        (forall x, file_px (ts_image (tr_src row)) (s_osr s + r) (s_osc s + k) x -> not_finite x -> not_finite p) /\
        (forall x a b S, file_px (ts_image (tr_src row)) (s_osr s + r) (s_osc s + k) x -> value x a ->
           bkg_value (ts_bkg (tr_src row)) (s_osr s + r) (s_osc s + k) b -> scale_value (ts_scale (tr_src row)) S ->
           moderate a -> moderate b -> moderate_scale S ->
           exists v, value p v /\ near v ((a - b) * S) (Qpower (2#1) (-140) * (1 + Qabs S))).
Proof. exact TypedLemmas7.typed_image. Qed.
Print Assumptions C91_image.

Theorem C91_weight : forall R ub c u kinds types rows input junk f, Forall (fun o => 1 <= o_box o) input -> Forall (fun r => tsource_ok (tr_src r)) rows ->
  make_typed R ub c u kinds types rows input junk = Ok f ->
  forall iobj icut o s row S, stored f iobj icut o s -> zget rows (s_file s) = Some row -> tf_ext f TWeight <> None ->
    scale_value (ts_scale (tr_src row)) S -> moderate_scale S ->
    exists cut, get_cutout_typed f iobj icut TWeight = Ok cut /\ nr cut = o_box o /\ nc cut = o_box o /\
      forall r k, 0 <= r < o_box o -> 0 <= k < o_box o -> exists p, px cut r k = Some p /\
        ((forall x, ~ file_px (ts_weight (tr_src row)) (s_osr s + r) (s_osc s + k) x) -> value p 0) /\
        (unusable_px u (tr_src row) (s_osr s + r) (s_osc s + k) -> value p 0) /\
        (forall x, file_px (ts_weight (tr_src row)) (s_osr s + r) (s_osc s + k) x -> ~ unusable_px u (tr_src row) (s_osr s + r) (s_osc s + k) ->
           (not_finite x -> not_finite p) /\ (value x 0 -> value p 0) /\
           forall w, value x w -> moderate w -> exists v, value p v /\ near v (w / (S * S)) (Qpower (2#1) (-140) * (1 + 1 / (S * S)))).
Proof. exact TypedLemmas7.typed_weight. Qed.
Print Assumptions C91_weight.

(** Without background and scale, values of the output type are stored as they are. *)
Theorem C91_exact : forall R ub c u kinds types rows input junk f, R = numpy1 \/ R = numpy2 ->
  Forall (fun o => 1 <= o_box o) input -> Forall (fun r => tsource_ok (tr_src r)) rows ->
  make_typed R ub c u kinds types rows input junk = Ok f ->
  forall iobj icut o s row t d, stored f iobj icut o s -> zget rows (s_file s) = Some row -> tf_ext f t <> None ->
    scale_value (ts_scale (tr_src row)) 1 -> kinds t = KF d ->
    (t = TImage /\ (forall b, ts_bkg (tr_src row) <> QFile b)) \/ t = TWeight ->
    exists cut, get_cutout_typed f iobj icut t = Ok cut /\
      forall r k x a, 0 <= r < o_box o -> 0 <= k < o_box o ->
        file_px (tfile_of (tr_src row) t) (s_osr s + r) (s_osc s + k) x -> value x a -> is_float d a ->
        ~ (t = TWeight /\ unusable_px u (tr_src row) (s_osr s + r) (s_osc s + k)) ->
        exists p, px cut r k = Some p /\ value p a.
Proof. exact TypedLemmas8.typed_exact. Qed.
Print Assumptions C91_exact.

(** 993 times the double next to 0.1 rounds up in single precision; 3 over its
    square is exact; NaN stays; unscaled values are kept. *)
Example C91_example : exists f o s s' im wt im', ex_tmake numpy1 = Ok f /\ stored f 0 0 o s /\ stored f 0 1 o s' /\ s_file s = 0 /\ s_file s' = 1 /\
  ~ int_file (ts_bkg (ex_tsrc1 (mkArr (KI false 16) (ex_iimg 9 10 0 1)))) /\ moderate_scale ex_tenth /\
  get_cutout_typed f 0 0 TImage = Ok im /\ px im 1 1 = Some (NF (Fin (13015450 # 131072))) /\
  get_cutout_typed f 1 0 TWeight = Ok wt /\ px wt 1 1 = Some (NF (Fin (9830400 # 32768))) /\ px wt 2 2 = Some (NF (Fin 0)) /\
  get_cutout_typed f 0 1 TImage = Ok im' /\ px im' 1 0 = Some (NF (Fin (16400384 # 8192))) /\ px im' 2 1 = Some (NF NaN).
Proof.
  do 7 eexists. split; [vm_compute; reflexivity|].
  split; [split; [vm_compute; reflexivity|split; [vm_compute; split; [discriminate|reflexivity]|vm_compute; reflexivity]]|].
  split; [split; [vm_compute; reflexivity|split; [vm_compute; split; [discriminate|reflexivity]|vm_compute; reflexivity]]|].
  split; [vm_compute; reflexivity|]. split; [vm_compute; reflexivity|]. split; [exact (fun H => H)|]. split; [split; vm_compute; discriminate|].
  split; [vm_compute; reflexivity|]. split; [vm_compute; reflexivity|]. split; [vm_compute; reflexivity|]. split; [vm_compute; reflexivity|]. split; [vm_compute; reflexivity|].
  split; [vm_compute; reflexivity|]. split; vm_compute; reflexivity.
Qed.

(** * C92: floating point images and weights can be used, and only those. *)
Theorem C92_floats_partial : forall R ub c u kinds req rows input junk,
  layout_possible c (map tr_image rows) input -> Forall (fun o => 1 <= o_box o) input -> Forall (fun r => tsource_ok (tr_src r)) rows ->
  (forall t, t = TImage \/ In t req -> kind_suits t (kinds t) /\ forall r, In r rows -> treadable u (tr_src r) t) ->
  exists f, make_typed R ub c u kinds (map ctype_name req) rows input junk = Ok f.
Proof. exact TypedLemmas8.floats_writable. Qed.
Print Assumptions C92_floats_partial.

Theorem C92_only_floats : forall R ub c u kinds types rows input junk f, Forall (fun o => 1 <= o_box o) input -> Forall (fun r => tsource_ok (tr_src r)) rows ->
  make_typed R ub c u kinds types rows input junk = Ok f ->
  tf_ext f TImage <> None /\
  (forall r, In r rows -> float_file (ts_image (tr_src r)) /\ (tf_ext f TWeight <> None -> float_file (ts_weight (tr_src r)))) /\
  (forall iobj icut o s, stored f iobj icut o s -> (exists row, zget rows (s_file s) = Some row) ->
     (exists d, kinds TImage = KF d) /\ (tf_ext f TWeight <> None -> exists d, kinds TWeight = KF d)).
Proof. exact TypedLemmas8.only_floats. Qed.
Print Assumptions C92_only_floats.

(** An image of integers, or an integer image_dtype, is an error in either version
    of numpy. *)
Theorem C92_refuted : exists ub c rows rows' kinds input junk,
  layout_possible c (map tr_image rows) input /\ Forall (fun o => 1 <= o_box o) input /\ Forall (fun r => tsource_ok (tr_src r)) rows /\
  (forall r, In r rows -> int_file (ts_image (tr_src r))) /\ (forall R, make_typed R ub c None default_kinds [] rows input junk = Err TypeError) /\
  (forall R, exists f, make_typed R ub c None default_kinds [] rows' input junk = Ok f) /\
  kinds TImage = KI true 32 /\ (forall R, make_typed R ub c None kinds [] rows' input junk = Err TypeError).
Proof.
  exists ex_ub, (ex_lconf false false false false 1), ex_trows4, ex_trows3, (fun _ => KI true 32), ex_tobjs, ex_tjunk.
  split; [split; [discriminate|split; [reflexivity|intros H; discriminate H]]|]. split; [repeat constructor; vm_compute; discriminate|]. split; [exact TypedLemmas9.ex_trows4_ok|].
  split; [intros r [<-|[]]; exact I|]. split; [intros R; vm_compute; reflexivity|].
  split; [intros R; eexists; vm_compute; reflexivity|]. split; [reflexivity|]. intros R; vm_compute; reflexivity.
Qed.
Print Assumptions C92_refuted.

Example C92_example : layout_possible (k_l ex_conf) (map tr_image ex_trows) ex_objs /\
  (forall t, t = TImage \/ In t [TWeight; TSeg; TBmask] -> kind_suits t (default_kinds t) /\ forall r, In r ex_trows -> treadable (Some 4) (tr_src r) t).
Proof.
  split.
  - split; [discriminate|]. split; [reflexivity|]. intros _. split; [intros [H|H]; discriminate H|]. intros _ _ im o E Ho. injection E as <-.
    apply LayoutLemmas.acc_accepted. destruct Ho as [<-|[<-|[<-|[]]]]; vm_compute; reflexivity.
  - intros t Ht. assert (t = TImage \/ t = TWeight \/ t = TSeg \/ t = TBmask) as C by (destruct Ht as [->|[<-|[<-|[<-|[]]]]]; auto). clear Ht.
    assert (B : Z.lt 4 (2 ^ 16) /\ - 2 ^ 31 <= 4 < 2 ^ 31) by (vm_compute; repeat split; discriminate).
    split; [destruct C as [->|[->|[->| ->]]]; try exact I; vm_compute; split; [discriminate|reflexivity]|].
    intros r [<-|[<-|[]]]; destruct C as [->|[->|[->| ->]]]; cbn [treadable tr_src opt_tpath tfile_of ts_image ts_bkg ts_weight ts_seg ts_bmask ts_bytes ex_tsrc1 ex_tsrc2]; try exact I; try reflexivity.
    + do 2 eexists. split; [reflexivity|]. split; [exact I|]. intros b E. injection E as <-. split; reflexivity.
    + do 2 eexists. split; [reflexivity|]. intros bad E. injection E as <-. split; [exact I|]. intros b E. injection E as <-. split; [reflexivity|]. split; [reflexivity|]. do 2 eexists. split; [reflexivity|]. vm_compute. split; [discriminate|reflexivity].
    + do 2 eexists. split; [reflexivity|]. split; [reflexivity|]. intros b E. discriminate E.
    + do 2 eexists. split; [reflexivity|]. intros bad E. injection E as <-. split; [exact I|]. intros b E. injection E as <-. split; [reflexivity|]. split; [reflexivity|]. do 2 eexists. split; [reflexivity|]. vm_compute. split; [discriminate|reflexivity].
Qed.
