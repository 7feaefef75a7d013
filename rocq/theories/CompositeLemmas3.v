(** Semantics of the composite accessors. *)
From Coq Require Import Lia ZifyBool ZifyNat Qabs Lqa.
From Verif Require Import Base BaseLemmas Img ImgLemmas Types Reader BoundsM MakerLayout Composite
  SpecTiles SpecFile SpecComposite ReadLemmas CompositeLemmas CompositeLemmas2.
Open Scope Z_scope.
Ltac Zify.zify_post_hook ::= Z.div_mod_to_equations.

Lemma cutout_square f iobj icut o s t im : file_wf f -> cutout_at f iobj icut o s ->
  get_cutout f iobj icut t = Ok im -> square (o_box o) im /\ 0 < o_box o.
Proof.
  intros Hwf Hc H. destruct (ext_find (m_ext f) t) as [m|] eqn:Em.
  - destruct (get_cutout_eq f iobj icut o s t m Hwf Hc Em) as (xs & _ & E & L). rewrite H in E. inversion E; subst.
    destruct (cut_in_range f iobj icut o s t m Hwf Hc Em) as (_ & _ & B). repeat split; cbn; lia.
  - unfold get_cutout in H. apply bind_ok in H. destruct H as (o' & E & H).
    rewrite (check_indices_ok f iobj icut o (proj1 Hc) (proj1 (proj2 Hc))) in E. inversion E; subst o'.
    apply bind_ok in H. destruct H as (s' & _ & H). unfold get_extension in H. rewrite Em in H. discriminate H.
Qed.

Lemma central_wrap seg s0 v : central_seg seg s0 v -> (0 <= s_crow s0)%Q -> (0 <= s_ccol s0)%Q ->
  px_wrap seg (qtrunc (s_crow s0)) (qtrunc (s_ccol s0)) = Ok v.
Proof.
  intros H Hr Hc. unfold px_wrap. unfold central_seg in H.
  assert (T : forall x, (0 <= x)%Q -> qtrunc x = Qfloor x /\ 0 <= Qfloor x).
  { intros x Hx. unfold qtrunc. apply Qle_bool_iff in Hx. rewrite Hx. split; [reflexivity|].
    change 0 with (Qfloor (inject_Z 0)). apply Qfloor_resp_le. apply Qle_bool_iff. exact Hx. }
  destruct (T _ Hr) as [T1 T2]. destruct (T _ Hc) as [T3 T4]. rewrite T1, T3.
  dif E1; [lia|]. dif E2; [lia|]. apply px_res_ok. exact H.
Qed.

Lemma composite_total f iobj k o s0 s im seg restrict segid :
  zget (m_cat f) iobj = Some o -> zget (o_slots o) 0 = Some s0 -> zget (o_slots o) k = Some s ->
  img_ok im -> img_ok seg -> nr seg = nr im -> nc seg = nc im -> 0 < nr seg -> 0 < nc seg ->
  central_seg seg s0 segid -> (0 <= s_crow s0)%Q -> (0 <= s_ccol s0)%Q ->
  exists cim, make_composite_image f iobj k im seg restrict = Ok cim /\
    pixelwise (composite_px restrict seg s0 s k segid) im cim.
Proof.
  intros Ho H0 Hs Him Hseg En Em Hh Hw Hcen P1 P2.
  assert (exists cim, make_composite_image f iobj k im seg restrict = Ok cim) as (cim & E).
  { unfold make_composite_image.
    rewrite (rowcol_ok f iobj 0 o s0 Ho H0), (rowcol_ok f iobj k o s Ho Hs). cbn [bind slot_cen fst snd].
    rewrite (central_wrap _ _ _ Hcen P1 P2). cbn [bind]. destruct Him as (I1 & I2 & I3).
    dif E0.
    - apply tab2M_exists; [assumption..|]. intros r c Hr Hc.
      destruct (px_in seg r c Hseg) as (v & Hv); [lia|lia|].
      destruct (px_in im r c) as (x & Hx); [repeat split; assumption|lia|lia|].
      unfold px_res. rewrite Hv, Hx. cbn [bind]. eexists; reflexivity.
    - rewrite (jacmat_ok f iobj k o s Ho Hs), (jacmat_ok f iobj 0 o s0 Ho H0). cbn [bind].
      destruct (mat_inv (slot_mat s0)) as [inv|e] eqn:Ei.
      + apply tab2M_exists; [assumption..|]. intros r c Hr Hc.
        destruct (to_coadd_spec s0 s inv (nr seg) (nc seg) r c Hh Hw Ei) as (X & Y & i & j & _ & _ & _ & _ & _ & T6 & T7).
        unfold slot_cen in *. destruct (to_coadd _ _ _ _ _ _ _ _) as [cr cc]. cbn [fst snd] in *.
        destruct (px_in seg cr cc Hseg T6 T7) as (v & Hv).
        destruct (px_in im r c) as (x & Hx); [repeat split; assumption|lia|lia|].
        unfold px_res. rewrite Hv, Hx. cbn [bind]. eexists; reflexivity.
      + apply tab2M_exists; [assumption..|]. intros. eexists; reflexivity. }
  exists cim. split; [exact E|].
  destruct (composite_spec f iobj k o s0 s im seg restrict cim Ho H0 Hs Him Hseg Hh Hw E)
    as (O1 & O2 & O3 & id & C1 & C2).
  specialize (C1 P1 P2). unfold central_seg in *. rewrite Hcen in C1. inversion C1; subst id.
  split; [exact O1|]. split; [exact O2|]. split; [exact O3|]. intros r c x y Hx Hy. exact (C2 r c x y Hx Hy).
Qed.

Lemma cweight_semantics f iobj k o s0 s wt seg restrict segid : file_wf f ->
  cutout_at f iobj k o s -> zget (o_slots o) 0 = Some s0 ->
  get_cutout f iobj k TWeight = Ok wt -> get_cutout f iobj 0 TSeg = Ok seg ->
  central_seg seg s0 segid -> (0 <= s_crow s0)%Q -> (0 <= s_ccol s0)%Q ->
  exists cw, get_cweight_cutout f iobj k restrict = Ok cw /\
    pixelwise (composite_px restrict seg s0 s k segid) wt cw.
Proof.
  intros Hwf Hc H0 Hwt Hseg Hcen P1 P2.
  assert (Hc0 : cutout_at f iobj 0 o s0) by (destruct Hc as (A & B & C); repeat split; try assumption; lia).
  destruct (cutout_square _ _ _ _ _ _ _ Hwf Hc Hwt) as ((S1 & S2 & S3) & Hb).
  destruct (cutout_square _ _ _ _ _ _ _ Hwf Hc0 Hseg) as ((T1 & T2 & T3) & _).
  unfold get_cweight_cutout. rewrite Hwt, Hseg. cbn [bind]. destruct Hc as (A & B & C).
  eapply composite_total; try eassumption; lia.
Qed.

Lemma cweight_cases f iobj k o s wt restrict cw : file_wf f -> cutout_at f iobj k o s ->
  get_cutout f iobj k TWeight = Ok wt -> get_cweight_cutout f iobj k restrict = Ok cw ->
  img_ok cw /\ nr cw = nr wt /\ nc cw = nc wt /\
  forall r c x y, px wt r c = Some x -> px cw r c = Some y -> y = x \/ y = 0%Q.
Proof.
  intros Hwf Hc Hwt Hcw. destruct (cutout_square _ _ _ _ _ _ _ Hwf Hc Hwt) as ((S1 & S2 & S3) & Hb).
  unfold get_cweight_cutout in Hcw. rewrite Hwt in Hcw. cbn [bind] in Hcw.
  apply bind_ok in Hcw. destruct Hcw as (seg & Hseg & E).
  destruct (composite_shape _ _ _ _ _ _ _ S1 E) as (O1 & O2 & O3). split; [exact O1|]. split; [exact O2|].
  split; [exact O3|].
  destruct (slots_exist f o 0 Hwf) as (s0 & H0); [destruct Hc as (A & _); eapply zget_In; exact A|destruct Hc; lia|].
  assert (Hc0 : cutout_at f iobj 0 o s0) by (destruct Hc as (A & B & C); repeat split; try assumption; lia).
  destruct (cutout_square _ _ _ _ _ _ _ Hwf Hc0 Hseg) as ((T1 & T2 & T3) & _).
  destruct Hc as (A & B & C).
  destruct (composite_spec f iobj k o s0 s wt seg restrict cw A H0 C S1 T1 ltac:(lia) ltac:(lia) E)
    as (_ & _ & _ & id & _ & C2).
  intros r c x y Hx Hy. destruct (C2 r c x y Hx Hy) as [(_ & _ & ->)|(_ & v & _ & V1 & V2)]; [right; reflexivity|].
  destruct (seg_logic restrict id v) eqn:EL.
  - right. apply V1. apply seg_logic_spec. exact EL.
  - left. apply V2. rewrite <- seg_logic_spec. congruence.
Qed.

Lemma cweight_restrict f iobj k cw cwr : get_cweight_cutout f iobj k false = Ok cw ->
  get_cweight_cutout f iobj k true = Ok cwr ->
  forall r c x y, px cw r c = Some x -> px cwr r c = Some y -> y = x \/ y = 0%Q.
Proof.
  unfold get_cweight_cutout. intros H1 H2.
  apply bind_ok in H1. destruct H1 as (wt & Ew & H1). rewrite Ew in H2. cbn [bind] in H2.
  apply bind_ok in H1. destruct H1 as (seg & Es & H1). rewrite Es in H2. cbn [bind] in H2.
  assert (Hsh : 0 <= nr wt /\ 0 <= nc wt).
  { unfold get_cutout in Ew. apply bind_ok in Ew. destruct Ew as (o & _ & Ew).
    repeat (match type of Ew with
            | Err _ = Ok _ => discriminate Ew
            | reshape _ _ _ = Ok _ => apply reshape_ok in Ew; destruct Ew as (-> & (? & ? & ?)); cbn in *; lia
            | bind _ _ = Ok _ => apply bind_ok in Ew; destruct Ew as (? & ? & Ew)
            | (if ?b then _ else _) = Ok _ => destruct b
            | match ?b with _ => _ end = Ok _ => destruct b
            end). }
  destruct Hsh as (Hn & Hm). unfold make_composite_image in *.
  apply bind_ok in H1. destruct H1 as (c0 & E0 & H1). rewrite E0 in H2. cbn [bind] in H2.
  apply bind_ok in H1. destruct H1 as (cen & E1 & H1). rewrite E1 in H2. cbn [bind] in H2.
  apply bind_ok in H1. destruct H1 as (id & E2 & H1). rewrite E2 in H2. cbn [bind] in H2.
  assert (HL : forall v x, (if seg_logic true id v then 0%Q else x) = (if seg_logic false id v then 0%Q else x) \/
     (if seg_logic true id v then 0%Q else x) = 0%Q).
  { intros v x. unfold seg_logic. destruct (Qeq_bool v id), (Qeq_bool v 0); cbn; auto. }
  dif_in H1 E.
  - apply tab2M_ok in H1; [|assumption..]. apply tab2M_ok in H2; [|assumption..].
    destruct H1 as (_ & N1 & M1 & P1). destruct H2 as (_ & N2 & M2 & P2).
    intros r c x y Hx Hy. destruct (px_Some_range _ _ _ _ Hx) as [Rr Rc]. rewrite N1 in Rr. rewrite M1 in Rc.
    destruct (P1 r c Rr Rc) as (a & Ha & Hpa). destruct (P2 r c Rr Rc) as (b & Hb & Hpb).
    rewrite Hx in Hpa. rewrite Hy in Hpb. inversion Hpa; inversion Hpb; subst a b.
    apply bind_ok in Ha. destruct Ha as (v & Ev & Ha). rewrite Ev in Hb. cbn [bind] in Hb.
    apply bind_ok in Ha. destruct Ha as (z & Ez & Ha). rewrite Ez in Hb. cbn [bind] in Hb.
    inversion Ha; inversion Hb. apply HL.
  - apply bind_ok in H1. destruct H1 as (j & Ej & H1). rewrite Ej in H2. cbn [bind] in H2.
    apply bind_ok in H1. destruct H1 as (j0 & Ej0 & H1). rewrite Ej0 in H2. cbn [bind] in H2.
    destruct (mat_inv j0) as [inv|e].
    + apply tab2M_ok in H1; [|assumption..]. apply tab2M_ok in H2; [|assumption..].
      destruct H1 as (_ & N1 & M1 & P1). destruct H2 as (_ & N2 & M2 & P2).
      intros r c x y Hx Hy. destruct (px_Some_range _ _ _ _ Hx) as [Rr Rc]. rewrite N1 in Rr. rewrite M1 in Rc.
      destruct (P1 r c Rr Rc) as (a & Ha & Hpa). destruct (P2 r c Rr Rc) as (b & Hb & Hpb).
      rewrite Hx in Hpa. rewrite Hy in Hpb. inversion Hpa; inversion Hpb; subst a b.
      destruct (to_coadd _ _ _ _ _ _ _ _) as [cr cc].
      apply bind_ok in Ha. destruct Ha as (v & Ev & Ha). rewrite Ev in Hb. cbn [bind] in Hb.
      apply bind_ok in Ha. destruct Ha as (z & Ez & Ha). rewrite Ez in Hb. cbn [bind] in Hb.
      inversion Ha; inversion Hb. apply HL.
    + apply tab2M_ok in H1; [|assumption..]. apply tab2M_ok in H2; [|assumption..].
      destruct H1 as (_ & N1 & M1 & P1). destruct H2 as (_ & N2 & M2 & P2).
      intros r c x y Hx Hy. destruct (px_Some_range _ _ _ _ Hx) as [Rr Rc]. rewrite N1 in Rr. rewrite M1 in Rc.
      destruct (P1 r c Rr Rc) as (a & Ha & Hpa). destruct (P2 r c Rr Rc) as (b & Hb & Hpb).
      inversion Hb; subst b. rewrite Hy in Hpb. inversion Hpb. right; reflexivity.
Qed.

Lemma cseg_semantics f iobj k o s0 s seg sek segid : file_wf f -> m_number_col f = true ->
  cutout_at f iobj k o s -> zget (o_slots o) 0 = Some s0 ->
  get_cutout f iobj k TSeg = Ok sek -> get_cutout f iobj 0 TSeg = Ok seg ->
  central_seg seg s0 segid -> (0 <= s_crow s0)%Q -> (0 <= s_ccol s0)%Q ->
  exists cs, get_cseg_cutout f iobj k = Ok cs /\
    pixelwise (fun r c _ y => composite_px false seg s0 s k segid r c (inject_Z (o_number o)) y) sek cs.
Proof.
  intros Hwf Hnum Hc H0 Hsek Hseg Hcen P1 P2.
  assert (Hc0 : cutout_at f iobj 0 o s0) by (destruct Hc as (A & B & C); repeat split; try assumption; lia).
  destruct (cutout_square _ _ _ _ _ _ _ Hwf Hc Hsek) as ((S1 & S2 & S3) & Hb).
  destruct (cutout_square _ _ _ _ _ _ _ Hwf Hc0 Hseg) as ((T1 & T2 & T3) & _).
  destruct Hc as (A & B & C).
  unfold get_cseg_cutout. rewrite Hsek, (number_ok f iobj o A Hnum), Hseg. cbn [bind].
  destruct (composite_total f iobj k o s0 s (fill_with sek (inject_Z (o_number o))) seg false segid)
    as (cs & E1 & E2 & E3 & E4 & E5); try assumption; try (unfold fill_with; cbn [imap nr nc]; lia).
  { apply imap_ok. exact S1. }
  exists cs. split; [exact E1|]. split; [exact E2|]. split; [exact E3|]. split; [exact E4|].
  intros r c x y Hx Hy. apply (E5 r c); [|exact Hy]. unfold fill_with. rewrite px_imap, Hx. reflexivity.
Qed.

Lemma interpolation_semantics f iobj k o s0 s seg : file_wf f ->
  cutout_at f iobj k o s -> zget (o_slots o) 0 = Some s0 -> get_cutout f iobj 0 TSeg = Ok seg ->
  k = 0 \/ ~ (jac_det s0 == 0)%Q ->
  exists im, interpolate_coadd_seg f iobj k = Ok im /\
    pixelwise (fun r c _ v => seen seg s0 s k r c v) seg im.
Proof.
  intros Hwf Hc H0 Hseg Hk.
  assert (Hc0 : cutout_at f iobj 0 o s0) by (destruct Hc as (A & B & C); repeat split; try assumption; lia).
  destruct (cutout_square _ _ _ _ _ _ _ Hwf Hc0 Hseg) as ((T1 & T2 & T3) & Hb). destruct Hc as (A & B & C).
  unfold interpolate_coadd_seg. rewrite Hseg. cbn [bind]. dif E0.
  - exists seg. split; [reflexivity|]. split; [exact T1|]. split; [reflexivity|]. split; [reflexivity|].
    intros r c x y Hx Hy. unfold seen. rewrite E0. exact Hy.
  - rewrite (jacmat_ok f iobj k o s A C), (rowcol_ok f iobj k o s A C). cbn [bind].
    unfold interpolate_coadd_seg_image. rewrite Hseg, (jacmat_ok f iobj 0 o s0 A H0), (rowcol_ok f iobj 0 o s0 A H0).
    cbn [bind]. destruct (mat_inv (slot_mat s0)) as [inv|e] eqn:Ei.
    2:{ unfold mat_inv, slot_mat in Ei. destruct (Qeq_bool _ 0) eqn:Eq; [|discriminate]. apply Qeq_bool_iff in Eq.
        destruct Hk as [->|Hk]; [lia|]. contradiction. }
    cbn [bind]. pose proof T1 as (I1 & I2 & I3).
    destruct (tab2M_exists (nr seg) (nc seg) (fun r c =>
       let '(cr, cc) := to_coadd (slot_mat s) inv (slot_cen s) (slot_cen s0) (nr seg) (nc seg) r c in px_res seg cr cc))
      as (im & Eim); [lia|lia| |].
    { intros r c Hr Hc. destruct (to_coadd_spec s0 s inv (nr seg) (nc seg) r c ltac:(lia) ltac:(lia) Ei) as (X & Y & i & j & _ & _ & _ & _ & _ & T6 & T7).
      destruct (to_coadd _ _ _ _ _ _ _ _) as [cr cc]. cbn [fst snd] in *.
      destruct (px_in seg cr cc T1 T6 T7) as (v & Hv). exists v. apply px_res_ok. exact Hv. }
    exists im. split; [exact Eim|]. apply tab2M_ok in Eim; [|assumption..]. destruct Eim as (O1 & O2 & O3 & O4).
    split; [exact O1|]. split; [exact O2|]. split; [exact O3|]. intros r c x v Hx Hv.
    destruct (px_Some_range _ _ _ _ Hx) as [Rr Rc]. destruct (O4 r c Rr Rc) as (a & Ha & Hp).
    destruct (to_coadd_spec s0 s inv (nr seg) (nc seg) r c ltac:(lia) ltac:(lia) Ei) as (X & Y & i & j & U1 & U2 & U3 & U4 & U5 & U6 & U7).
    destruct (to_coadd _ _ _ _ _ _ _ _) as [cr cc]. cbn [fst snd] in *. apply px_res_ok in Ha.
    rewrite Hv in Hp. inversion Hp; subst a. unfold seen. rewrite E0. exists X, Y, i, j, cr, cc. auto 10.
Qed.

Lemma interpolation_singular f iobj k o s0 s seg :
  cutout_at f iobj k o s -> zget (o_slots o) 0 = Some s0 -> get_cutout f iobj 0 TSeg = Ok seg ->
  k <> 0 -> (jac_det s0 == 0)%Q -> interpolate_coadd_seg f iobj k = Err LinAlgError.
Proof.
  intros (A & B & C) H0 Hseg Hk Hd. unfold interpolate_coadd_seg. rewrite Hseg. cbn [bind]. dif E0; [lia|].
  rewrite (jacmat_ok f iobj k o s A C), (rowcol_ok f iobj k o s A C). cbn [bind].
  unfold interpolate_coadd_seg_image. rewrite Hseg, (jacmat_ok f iobj 0 o s0 A H0), (rowcol_ok f iobj 0 o s0 A H0).
  cbn [bind]. unfold mat_inv, slot_mat. unfold jac_det in Hd. apply Qeq_bool_iff in Hd. rewrite Hd. reflexivity.
Qed.

Lemma interpolation_same f iobj k o s0 s seg : file_wf f ->
  cutout_at f iobj k o s -> zget (o_slots o) 0 = Some s0 -> get_cutout f iobj 0 TSeg = Ok seg ->
  ~ (jac_det s0 == 0)%Q ->
  (s_dudrow s == s_dudrow s0)%Q -> (s_dudcol s == s_dudcol s0)%Q ->
  (s_dvdrow s == s_dvdrow s0)%Q -> (s_dvdcol s == s_dvdcol s0)%Q ->
  (s_crow s == s_crow s0)%Q -> (s_ccol s == s_ccol s0)%Q ->
  interpolate_coadd_seg f iobj k = Ok seg.
Proof.
  intros Hwf Hc H0 Hseg Hd J1 J2 J3 J4 J5 J6.
  assert (Hc0 : cutout_at f iobj 0 o s0) by (destruct Hc as (A & B & C); repeat split; try assumption; lia).
  destruct (cutout_square _ _ _ _ _ _ _ Hwf Hc0 Hseg) as ((T1 & T2 & T3) & Hb). destruct Hc as (A & B & C).
  unfold interpolate_coadd_seg. rewrite Hseg. cbn [bind]. dif E0; [reflexivity|].
  rewrite (jacmat_ok f iobj k o s A C), (rowcol_ok f iobj k o s A C). cbn [bind].
  unfold interpolate_coadd_seg_image. rewrite Hseg, (jacmat_ok f iobj 0 o s0 A H0), (rowcol_ok f iobj 0 o s0 A H0).
  cbn [bind]. destruct (mat_inv (slot_mat s0)) as [inv|e] eqn:Ei.
  2:{ unfold mat_inv, slot_mat in Ei. destruct (Qeq_bool _ 0) eqn:Eq; [|discriminate]. apply Qeq_bool_iff in Eq. contradiction. }
  cbn [bind]. pose proof T1 as (I1 & I2 & I3).
  match goal with |- ?g = _ => destruct g as [im|e] eqn:Eim end.
  - apply tab2M_ok in Eim; [|assumption..]. destruct Eim as (O1 & O2 & O3 & O4). f_equal.
    apply img_ext; [exact O1|exact T1|exact O2|exact O3|]. intros r c Hr Hc. rewrite O2 in Hr. rewrite O3 in Hc.
    destruct (O4 r c Hr Hc) as (a & Ha & Hp).
    rewrite (to_coadd_same s0 s inv (nr seg) (nc seg) r c Hr Hc Ei J1 J2 J3 J4 J5 J6) in Ha.
    apply px_res_ok in Ha. congruence.
  - exfalso. destruct (interpolation_semantics f iobj k o s0 s seg Hwf) as (im & E & _);
      [repeat split; try assumption; lia|exact H0|exact Hseg|right; exact Hd|].
    unfold interpolate_coadd_seg in E. rewrite Hseg in E. cbn [bind] in E. rewrite E0 in E.
    rewrite (jacmat_ok f iobj k o s A C), (rowcol_ok f iobj k o s A C) in E. cbn [bind] in E.
    unfold interpolate_coadd_seg_image in E.
    rewrite Hseg, (jacmat_ok f iobj 0 o s0 A H0), (rowcol_ok f iobj 0 o s0 A H0) in E. cbn [bind] in E.
    rewrite Ei in E. cbn [bind] in E. congruence.
Qed.

(** * Circular mask *)
Lemma qmin_from_spec l : forall m, (qmin_from m l = m \/ In (qmin_from m l) l) /\ (qmin_from m l <= m)%Q /\
  forall x, In x l -> (qmin_from m l <= x)%Q.
Proof.
  induction l as [|a l IH]; intros m; cbn [qmin_from].
  - repeat split; [left; reflexivity|apply Qle_refl|intros x []].
  - destruct (IH (if qltb a m then a else m)) as (I1 & I2 & I3). destruct (qltb a m) eqn:E.
    + apply qltb_true in E. repeat split.
      * destruct I1 as [-> |I1]; right; [left; reflexivity|right; exact I1].
      * lra.
      * intros x [<- |Hx]; [exact I2|apply I3; exact Hx].
    + apply qltb_false in E. repeat split.
      * destruct I1 as [I1|I1]; [left; exact I1|right; right; exact I1].
      * exact I2.
      * intros x [<- |Hx]; [lra|apply I3; exact Hx].
Qed.

Lemma qmin_spec l m : qmin l = Ok m -> In m l /\ forall x, In x l -> (m <= x)%Q.
Proof.
  destruct l as [|a l]; [discriminate|]. cbn [qmin]. intros E. inversion E; subst m.
  destruct (qmin_from_spec l a) as (I1 & I2 & I3). split.
  - destruct I1 as [-> |I1]; [left; reflexivity|right; exact I1].
  - intros x [<- |Hx]; [exact I2|apply I3; exact Hx].
Qed.

Lemma In_positions h w r c : 0 <= h -> 0 <= w -> (In (r, c) (positions h w) <-> 0 <= r < h /\ 0 <= c < w).
Proof.
  intros Hh Hw. unfold positions. rewrite in_map_iff. split.
  - intros (p & E & Hp). apply In_zrange in Hp. destruct (unflat h w p Hp Hh Hw) as (U1 & U2 & U3).
    inversion E; subst. split; assumption.
  - intros (Hr & Hc). exists (r * w + c). destruct (flat_div h w r c Hr Hc) as (D1 & D2). split; [congruence|].
    apply In_zrange. apply flat_range; assumption.
Qed.

Lemma cseg_weight_semantics f iobj k o s seg wt canonical : file_wf f -> m_number_col f = true ->
  cutout_at f iobj k o s -> get_cutout f iobj k TSeg = Ok seg -> get_cutout f iobj k TWeight = Ok wt ->
  exists cw, get_cseg_weight f iobj k canonical = Ok cw /\
    pixelwise (fun r c x y =>
      (in_free_disc seg (o_number o) (disc_centre canonical o s) r c -> y = x) /\
      (~ in_free_disc seg (o_number o) (disc_centre canonical o s) r c -> y = 0%Q)) wt cw.
Proof.
  intros Hwf Hnum Hc Hseg Hwt.
  destruct (cutout_square _ _ _ _ _ _ _ Hwf Hc Hseg) as ((S1 & S2 & S3) & Hb).
  destruct (cutout_square _ _ _ _ _ _ _ Hwf Hc Hwt) as ((T1 & T2 & T3) & _). destruct Hc as (A & B & C).
  unfold get_cseg_weight. rewrite Hseg, Hwt. cbn [bind]. unfold number_col. rewrite Hnum.
  rewrite (proj2 (py_index_ok_nonneg _ _ _ (proj1 (zget_Some_range _ _ _ A))) A). cbn [bind].
  match goal with |- context [filter ?P ?L] => set (wo := filter P L) end.
  assert (HW : forall r c, In (r, c) wo <-> other_pixel seg (o_number o) r c).
  { intros r c. unfold wo. rewrite filter_In. cbn [fst snd]. destruct S1 as (S11 & S12 & S13).
    rewrite In_positions by assumption. unfold other_pixel. split.
    - intros (_ & H). destruct (px seg r c) as [v|] eqn:E; [|discriminate]. exists v. split; [reflexivity|].
      unfold other_seg in H. apply andb_true_iff in H. destruct H as (H1 & H2).
      apply negb_true_iff in H1. apply negb_true_iff in H2. apply Qeq_bool_false in H1. apply Qeq_bool_false in H2. tauto.
    - intros (v & E & N1 & N2). split; [eapply px_Some_range; exact E|]. rewrite E. unfold other_seg.
      apply Qeq_bool_false in N1. apply Qeq_bool_false in N2. rewrite N1, N2. reflexivity. }
  destruct wo as [|p0 wo'] eqn:Ewo.
  - exists wt. split; [reflexivity|]. split; [exact T1|]. split; [reflexivity|]. split; [reflexivity|].
    intros r c x y Hx Hy. rewrite Hx in Hy. inversion Hy; subst y. split; [reflexivity|].
    intros N. exfalso. apply N. intros r' c' H. apply HW in H. destruct H.
  - rewrite <- Ewo in *. assert (Hcen : (if canonical
       then Ok ((inject_Z (nr wt) - 1) / 2, (inject_Z (nc wt) - 1) / 2)%Q
       else get_cutout_rowcol f iobj k) = Ok (disc_centre canonical o s)).
    { unfold disc_centre. destruct canonical; [rewrite T2, T3; reflexivity|]. apply (rowcol_ok f iobj k o s A C). }
    rewrite Hcen. cbn [bind]. set (cen := disc_centre canonical o s) in *.
    assert (HW2 : forall p, In p wo <-> other_pixel seg (o_number o) (fst p) (snd p)).
    { intros [r c]. apply HW. }
    destruct (qmin _) as [m|e] eqn:Em; [|rewrite Ewo in Em; discriminate Em]. cbn [bind].
    apply qmin_spec in Em. destruct Em as (M1 & M2).
    destruct (tab2M_exists (nr wt) (nc wt) (fun r c => let* w := px_res wt r c in
        Ok (if qltb ((inject_Z r - fst cen) * (inject_Z r - fst cen)
                                + (inject_Z c - snd cen) * (inject_Z c - snd cen)) m then w else 0%Q))) as (cw & E);
      [apply T1|apply T1| |].
    { intros r c Hr Hc. destruct (px_in wt r c T1 Hr Hc) as (x & Hx). unfold px_res. rewrite Hx. cbn [bind].
      eexists; reflexivity. }
    exists cw. split; [exact E|]. apply tab2M_ok in E; [|apply T1|apply T1]. destruct E as (O1 & O2 & O3 & O4).
    split; [exact O1|]. split; [exact O2|]. split; [exact O3|]. intros r c x y Hx Hy.
    destruct (px_Some_range _ _ _ _ Hx) as [Rr Rc]. destruct (O4 r c Rr Rc) as (a & Ha & Hp).
    rewrite Hy in Hp. inversion Hp; subst a. unfold px_res in Ha. rewrite Hx in Ha. cbn [bind] in Ha.
    inversion Ha as [Ey]. clear Ha. change (qltb _ m) with (qltb (dist2 cen r c) m) in Ey |- *.
    assert (HD : in_free_disc seg (o_number o) cen r c <-> (dist2 cen r c < m)%Q).
    { apply in_map_iff in M1. destruct M1 as (p & Ep & Hp1). split.
      - intros D. rewrite <- Ep. apply (D (fst p) (snd p)). apply HW2. exact Hp1.
      - intros D r' c' H. eapply Qlt_le_trans; [exact D|]. apply M2. apply in_map_iff.
        exists (r', c'). split; [reflexivity|]. apply HW2. exact H. }
    rewrite HD. destruct (qltb (dist2 cen r c) m) eqn:EQ.
    + apply qltb_true in EQ. tauto.
    + apply qltb_false in EQ. split; [intros D; exfalso; lra|reflexivity].
Qed.

Lemma cseg_weight_no_number f iobj k canonical cw : m_number_col f = false ->
  get_cseg_weight f iobj k canonical <> Ok cw.
Proof.
  intros Hn H. unfold get_cseg_weight in H. apply bind_ok in H. destruct H as (a & _ & H).
  apply bind_ok in H. destruct H as (b & _ & H). unfold number_col in H. rewrite Hn in H. discriminate H.
Qed.
