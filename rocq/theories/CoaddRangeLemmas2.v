(** The file of coadds for any range. *)
From Coq Require Import Lia ZifyBool ZifyNat.
From Verif Require Import Base BaseLemmas Img ImgLemmas Types Reader BoundsM MakerLayout MakerWrite Composite Uberseg Coadd CoaddTarget CoaddRange
  SpecTiles SpecFile SpecComposite SpecCoadd SpecChain2 SpecCoaddRange ReadLemmas FileLemmas CoaddLemmas CoaddLemmas2 CoaddLemmas3 CoaddLemmas5 CoaddLemmas6 CoaddLemmas8
  CoaddTargetLemmas2 FromEndLemmas CoaddRangeLemmas.
Open Scope Z_scope.

Lemma In_zrange2 a b i : In i (zrange2 a b) <-> a <= i < b.
Proof.
  unfold zrange2. rewrite in_map_iff. split; [intros (k & <- & K); apply In_zrange in K; lia|]. intros I. exists (i - a). split; [lia|]. apply In_zrange. lia.
Qed.
Lemma zrange2_NoDup a b : NoDup (zrange2 a b).
Proof. unfold zrange2. apply FinFun.Injective_map_NoDup; [intros x y; lia|apply zrange_NoDup]. Qed.

Definition range_of (f : medsfile) (rg : option (Z * Z)) : list Z := match rg with Some (a, b) => zrange2 a b | None => zrange2 0 (zlen (m_cat f)) end.
Lemma named_iff f rg j : named f rg j <-> exists i, In i (range_of f rg) /\ means (zlen (m_cat f)) i j.
Proof.
  destruct rg as [[a b]|]; cbn [named range_of].
  - split; intros (i & I & M); exists i; (split; [apply In_zrange2; exact I|exact M]).
  - split; [intros J; exists j; split; [apply In_zrange2; exact J|split; [exact J|left; reflexivity]]|intros (i & _ & (J & _)); exact J].
Qed.

Theorem any_same f ct tp junk pjunk coadder rg : range_from_zero rg ->
  write_coadds_any f ct tp junk pjunk coadder rg = write_coadds f ct tp junk pjunk coadder rg.
Proof.
  intros R. unfold write_coadds_any, write_coadds. apply BaseLemmas.bind_ext. intros rows _.
  destruct (match rg with Some r => r | None => (0, zlen (m_cat f)) end) as [a b] eqn:E.
  assert (A : 0 <= a) by (destruct rg as [[x y]|]; injection E as <- <-; cbn in R; lia).
  rewrite (foldM_ext_in (write_object_any (add_types ct) coadder) (write_object_cutouts (add_types ct) coadder)); [reflexivity|].
  intros st i I. apply In_zrange2 in I. unfold write_object_any, write_object_cutouts. rewrite py_index_nonneg, row_of_nonneg by lia. reflexivity.
Qed.

Lemma any_wrote f ct tp junk pjunk coadder rg rows f' : stamp_shapes f coadder -> counts_from_end f coadder ->
  write_coadds_any f ct tp junk pjunk coadder rg = Ok (rows, f') ->
  exists rows0 st, coadd_obj_data f = Ok rows0 /\ Wrote (add_types ct) coadder rows0 (range_of f rg) st /\
    rows = ws_rows st /\ f' = mkMeds (map cr_obj (ws_rows st)) true PsfBoxObj (firstn 1 (m_info f)) (ws_ext st) (Some (ws_psf st)).
Proof.
  intros HS HW H. unfold write_coadds_any in H. apply bind_ok in H. destruct H as (rows0 & RD & H).
  destruct (match rg with Some r => r | None => (0, zlen (m_cat f)) end) as [a b] eqn:E.
  apply bind_ok in H. destruct H as (st & F & H). injection H as <- <-. exists rows0, st. split; [exact RD|]. split; [|split; reflexivity].
  destruct (obj_data_ok _ _ RD) as (n & _ & _ & R0). apply weaken_rows in R0.
  replace (range_of f rg) with (zrange2 a b) by (destruct rg as [[x y]|]; injection E as <- <-; reflexivity).
  apply (any_fold f (add_types ct) coadder rows0 HS HW R0 (zrange2 a b) [] _ st (any_start (add_types ct) coadder rows0 _ _ junk pjunk) F).
Qed.

Theorem any_pixels f ct tp junk pjunk coadder rg rows f' j co fl : stamp_shapes f coadder -> counts_from_end f coadder ->
  write_coadds_any f ct tp junk pjunk coadder rg = Ok (rows, f') -> named f rg j -> coadder j = Ok (Some co, fl) ->
  (forall t, In t ct \/ t = TOrmask \/ t = TNoise -> get_cutout f' j 0 t = Ok (coadd_plane co t)) /\ get_psf f' j 0 = Ok (co_psf co).
Proof.
  intros HS HW H N C. destruct (any_wrote _ _ _ _ _ _ _ _ _ HS HW H) as (rows0 & st & RD & W & -> & ->). destruct (obj_data_ok _ _ RD) as (n & _ & _ & R0). apply weaken_rows in R0.
  apply named_iff in N. destruct N as (i & I & M). split.
  - intros t T. apply (any_cutout f (add_types ct) coadder rows0 HS R0 _ _ W j co fl i t C I M). apply add_types_in. exact T.
  - apply (any_psf f (add_types ct) coadder rows0 HS R0 _ _ W j co fl i C I M).
Qed.

Theorem any_rows f ct tp junk pjunk coadder rg rows f' : stamp_shapes f coadder -> counts_from_end f coadder ->
  write_coadds_any f ct tp junk pjunk coadder rg = Ok (rows, f') ->
  range_names f rg /\ m_cat f' = map cr_obj rows /\ zlen rows = zlen (m_cat f) /\
  forall j r, zget rows j = Some r ->
  exists o, zget (m_cat f) j = Some o /\ o_box (cr_obj r) = o_box o /\ o_id (cr_obj r) = o_id o /\ o_number (cr_obj r) = o_number o /\
     ((exists co fl, named f rg j /\ coadder j = Ok (Some co, fl) /\ o_ncut (cr_obj r) = 1 /\ cr_coadd_flags r = fl /\ cr_ncoadd r = co_ncoadd co) \/
      (exists fl, named f rg j /\ coadder j = Ok (None, fl) /\ o_ncut (cr_obj r) = 0 /\ cr_coadd_flags r = fl /\ cr_ncoadd r = 0) \/
      (~ named f rg j /\ o_ncut (cr_obj r) = 0 /\ cr_coadd_flags r = 0 /\ cr_ncoadd r = 0)).
Proof.
  intros HS HW H. destruct (any_wrote _ _ _ _ _ _ _ _ _ HS HW H) as (rows0 & st & RD & W & -> & ->). destruct (obj_data_ok _ _ RD) as (n & _ & _ & R1). pose proof (weaken_rows _ _ _ R1) as R0.
  pose proof (rows0_len f rows0 R0) as RL. pose proof (w_len _ _ _ _ _ W) as WL. split; [|split; [reflexivity|split; [lia|]]].
  - destruct rg as [[a b]|]; [|exact I]. intros AB. pose proof (w_range _ _ _ _ _ W) as WR. cbn [range_of] in WR. rewrite RL in WR.
    pose proof (WR a ltac:(apply In_zrange2; lia)). pose proof (WR (b - 1) ltac:(apply In_zrange2; lia)). lia.
  - intros j r Z. pose proof (zget_Some_range _ _ _ Z) as RR. destruct (zget_range_Some rows0 j) as (r0 & Z0); [lia|].
    destruct (Forall2_zget _ _ _ R1 j r0 Z0) as (o & O & B1 & B2 & B3 & B4 & B5 & B6 & B7 & B8 & B9). exists o. split; [exact O|].
    destruct (w_rows _ _ _ _ _ W j r0 Z0) as (r' & Z1 & D). rewrite Z in Z1. injection Z1 as <-. rewrite RL in D.
    destruct D as [[D ->]|[D (x & fl & C & E)]].
    + split; [congruence|]. split; [congruence|]. split; [congruence|]. right; right. split; [rewrite named_iff; intros (i & I & M); exact (D i I M)|]. auto.
    + apply named_iff in D. destruct x as [co|].
      * destruct E as (_ & s & p & F & _). pose proof F as F'. destruct (filled_obj _ _ _ _ _ _ F) as (sl & rest & S1 & S2 & S3 & S4 & S5 & S6 & S7 & S8 & S9).
        unfold filled_row in F'. apply bind_ok in F'. destruct F' as (l1 & _ & F').
        assert (S10 : o_id (cr_obj r) = o_id (cr_obj r0) /\ o_number (cr_obj r) = o_number (cr_obj r0)) by (rewrite S1 in F'; injection F' as <-; split; reflexivity).
        destruct S10. split; [congruence|]. split; [congruence|]. split; [congruence|]. left. exists co, fl. auto.
      * subst r. cbn [failed_row cr_obj cr_ncoadd cr_coadd_flags] in *. split; [congruence|]. split; [congruence|]. split; [congruence|]. right; left. exists fl. auto.
Qed.

(** * Room *)
Lemma zsum_incl (g : Z -> Z) l : (forall x, 0 <= g x) -> NoDup l -> forall l', incl l l' -> zsum (map g l) <= zsum (map g l').
Proof.
  intros G N. induction N as [|x l X N IH]; intros l' I.
  - clear I. unfold zsum. induction l' as [|y l' IH']; cbn [map fold_right]; [lia|]. specialize (G y). cbn [map fold_right] in IH'. lia.
  - destruct (in_split x l') as (l1 & l2 & ->); [apply I; left; reflexivity|].
    assert (J : incl l (l1 ++ l2)).
    { intros y Y. specialize (I y (or_intror Y)). apply in_app_or in I. apply in_or_app. destruct I as [I|[<-|I]]; [left; exact I|contradiction|right; exact I]. }
    specialize (IH _ J). rewrite map_app, zsum_app in *. cbn [map]. unfold zsum in *. cbn [fold_right]. lia.
Qed.
Lemma zsum_cat {A} (l : list A) (g : A -> Z) : zsum (map g l) = zsum (map (fun j => match zget l j with Some a => g a | None => 0 end) (zrange (zlen l))).
Proof.
  induction l as [|x l IH] using rev_ind; [reflexivity|]. rewrite map_app, zsum_app, IH. unfold zlen at 2. rewrite app_length, Nat.add_1_r, zrange_S, map_app, zsum_app.
  change (Z.of_nat (length l)) with (zlen l). f_equal.
  - f_equal. apply map_ext_in. intros j J. apply In_zrange in J. unfold zget, zlen in *. destruct (j <? 0) eqn:E; [lia|]. rewrite nth_error_app1 by lia. reflexivity.
  - cbn [map]. unfold zget, zlen. destruct (Z.of_nat (length l) <? 0) eqn:E; [lia|]. rewrite nth_error_app2, Nat2Z.id, Nat.sub_diag by lia. reflexivity.
Qed.

Section Room.
  Variables (f : medsfile) (types : list ctype) (coadder : Z -> res (option cobs * Z)) (rows0 : list crow) (total ptotal : Z).
  Hypothesis HS : stamp_shapes f coadder.
  Hypothesis HW : counts_from_end f coadder.
  Hypothesis R0 : Forall2 (fun o r => o_box (cr_obj r) = o_box o /\ o_ncut (cr_obj r) = 0 /\ cr_ncoadd r = 0 /\ cr_coadd_flags r = 0 /\ zlen (o_slots (cr_obj r)) = 2) (m_cat f) rows0.
  Let n := zlen rows0.
  Definition csz (j : Z) : Z := match coadder j with Ok (Some co, _) => nr (co_image co) ^ 2 | _ => 0 end.
  Definition psz (j : Z) : Z := match coadder j with Ok (Some co, _) => nr (co_psf co) * nr (co_psf co) | _ => 0 end.
  Record Used (is : list Z) (st : wstate) : Prop := mkUsed {
    u_start : ws_row_start st + ws_size st = zsum (map csz (map (row_of n) is));
    u_pstart : ws_psf_row_start st + ws_psf_size st = zsum (map psz (map (row_of n) is));
    u_ext : forall t m, In t types -> ext_find (ws_ext st) t = Some m -> zlen m = total;
    u_psf : zlen (ws_psf st) = ptotal }.

  Lemma room_step is st i : Wrote types coadder rows0 is st -> Used is st -> - n <= i < n -> NoDup (map (row_of n) (is ++ [i])) ->
    zsum (map csz (map (row_of n) (is ++ [i]))) <= total -> zsum (map psz (map (row_of n) (is ++ [i]))) <= ptotal ->
    (exists x fl, coadder (row_of n i) = Ok (x, fl) /\ forall co r0, x = Some co -> zget rows0 (row_of n i) = Some r0 -> zlen (co_imflags co) <= zlen (cr_orig_flags r0)) ->
    exists st', write_object_any types coadder st i = Ok st' /\ Used (is ++ [i]) st'.
  Proof.
    intros W [U1 U2 U3 U4] RG ND T1 T2 (x & fl & C & FL). pose proof (row_of_means _ _ RG) as MJ.
    set (j := row_of n i) in *.
    assert (AP : forall g, zsum (map g (map (row_of n) is ++ map (row_of n) [i])) = zsum (map g (map (row_of n) is)) + g j).
    { intros g. rewrite map_app, zsum_app. cbn [map]. unfold zsum at 2. cbn [fold_right]. fold j. lia. }
    rewrite map_app, AP in T1, T2. destruct (zget_range_Some rows0 j) as (r0 & Z0); [apply MJ|]. destruct (w_rows _ _ _ _ _ W j r0 Z0) as (r & Z1 & D).
    assert (r = r0) as ->.
    { destruct D as [[_ E]|[(i0 & I0 & M0) _]]; [exact E|]. exfalso. rewrite map_app in ND. apply NoDup_remove_2 in ND. rewrite app_nil_r in ND. apply ND. fold j.
      rewrite <- (means_row _ _ _ M0). apply in_map. exact I0. }
    unfold write_object_any. rewrite (coadder_means f coadder rows0 HW R0 i j MJ), C. cbn [bind].
    assert (PY : py_index (ws_rows st) i = Ok r0). { unfold py_index. rewrite (w_len _ _ _ _ _ W). fold (row_of (zlen rows0) i). fold n. fold j. rewrite Z1. reflexivity. }
    rewrite PY. cbn [bind].
    assert (SZ : csz j = match x with Some co => nr (co_image co) ^ 2 | None => 0 end /\ psz j = match x with Some co => nr (co_psf co) * nr (co_psf co) | None => 0 end).
    { unfold csz, psz. rewrite C. destruct x; split; reflexivity. }
    destruct SZ as (SZ1 & SZ2).
    destruct x as [co|].
    2:{ eexists. split; [reflexivity|]. constructor; cbn [ws_rows ws_row_start ws_size ws_psf_row_start ws_psf_size ws_ext ws_psf]; rewrite ?(map_app (row_of n)), ?AP, ?SZ1, ?SZ2; try assumption; lia. }
    destruct (shape_of f coadder rows0 HS R0 j co fl r0 TImage C Z0) as (_ & LP & _).
    destruct (rows0_get f rows0 R0 j r0 Z0) as (o & O & BX & _ & _ & _ & SL). destruct (HS j o co fl O C) as (BP & PL & _). destruct (PL TImage) as (_ & N1 & _). cbn [coadd_plane] in N1.
    replace (o_box (cr_obj r0) =? nr (co_image co)) with true by lia. cbn [negb].
    unfold filled_row, set_prefix. specialize (FL co r0 eq_refl Z0). replace (zlen (co_imflags co) <=? zlen (cr_orig_flags r0)) with true by lia. cbn [bind].
    destruct (o_slots (cr_obj r0)) as [|s rest]; [unfold zlen in SL; cbn [length] in SL; lia|]. cbn [bind].
    destruct (write_types_total co (ws_row_start st + ws_size st) types (ws_ext st)) as (ext & WE).
    { intros t T. destruct (w_ext _ _ _ _ _ W t T) as (m & M). exists m. split; [exact M|]. split; [exact (w_start _ _ _ _ _ W)|].
      rewrite (U3 t m T M), (proj1 (shape_of f coadder rows0 HS R0 j co fl r0 t C Z0)), U1. lia. }
    rewrite WE. cbn [bind]. destruct (write_at_in_range (ws_psf st) (ws_psf_row_start st + ws_psf_size st) (dat (co_psf co))) as (psf & WP).
    { exact (w_pstart _ _ _ _ _ W). } { rewrite U4, U2, LP. lia. }
    rewrite WP. cbn [bind]. eexists. split; [reflexivity|]. apply write_types_ok in WE. destruct WE as (WF & WE). apply write_at_ok in WP. destruct WP as (P1 & P2 & P3 & P4).
    constructor; cbn [ws_rows ws_row_start ws_size ws_psf_row_start ws_psf_size ws_ext ws_psf]; rewrite ?(map_app (row_of n)), ?AP, ?SZ1, ?SZ2.
    - rewrite U1, BX, N1. reflexivity.
    - rewrite U2. ring.
    - intros t m T M. destruct (w_ext _ _ _ _ _ W t T) as (m0 & M0). destruct (WE t m0 M0) as (m' & Q1 & Q2 & _). rewrite M in Q1. injection Q1 as <-. rewrite Q2. exact (U3 t m0 T M0).
    - lia.
  Qed.

  Lemma room_fold l : forall is st, Wrote types coadder rows0 is st -> Used is st -> (forall i, In i l -> - n <= i < n) -> NoDup (map (row_of n) (is ++ l)) ->
    zsum (map csz (map (row_of n) (is ++ l))) <= total -> zsum (map psz (map (row_of n) (is ++ l))) <= ptotal ->
    (forall i, In i l -> exists x fl, coadder (row_of n i) = Ok (x, fl) /\ forall co r0, x = Some co -> zget rows0 (row_of n i) = Some r0 -> zlen (co_imflags co) <= zlen (cr_orig_flags r0)) ->
    exists st', foldM (write_object_any types coadder) l st = Ok st'.
  Proof.
    assert (G : forall x, 0 <= csz x /\ 0 <= psz x) by (intros x; unfold csz, psz; destruct (coadder x) as [[[co|] fl]|]; split; nia).
    induction l as [|i l IH]; intros is st W U RG ND T1 T2 CO; cbn [foldM]; [eexists; reflexivity|].
    replace (is ++ i :: l) with ((is ++ [i]) ++ l) in ND, T1, T2 by (rewrite <- app_assoc; reflexivity).
    assert (S : forall (g : Z -> Z), (forall x, 0 <= g x) -> zsum (map g (map (row_of n) (is ++ [i]))) <= zsum (map g (map (row_of n) ((is ++ [i]) ++ l)))).
    { intros g Hg. rewrite (map_app (row_of n) (is ++ [i])), (map_app g), zsum_app. enough (0 <= zsum (map g (map (row_of n) l))) by lia.
      generalize (map (row_of n) l). intros q. unfold zsum. induction q as [|y q IQ]; cbn [map fold_right]; [lia|]. specialize (Hg y). lia. }
    destruct (room_step is st i W U) as (st1 & E & U').
    - apply RG. left; reflexivity.
    - rewrite map_app in ND. clear -ND. revert ND. generalize (map (row_of n) (is ++ [i])) (map (row_of n) l). intros p q. induction p as [|y p IP]; cbn [app]; intros H; [constructor|].
      inversion H as [|? ? A B]; subst. constructor; [intros X; apply A; apply in_or_app; left; exact X|apply IP; exact B].
    - pose proof (S csz ltac:(intros; apply G)). lia.
    - pose proof (S psz ltac:(intros; apply G)). lia.
    - apply CO. left; reflexivity.
    - rewrite E. cbn [bind]. apply (IH (is ++ [i]) st1); try assumption.
      + eapply any_step; eassumption.
      + intros k K. apply RG. right; exact K.
      + intros k K. apply CO. right; exact K.
  Qed.
End Room.

Lemma rows_NoDup n a b : 0 <= n -> - n <= a -> b <= n -> b - a <= n -> NoDup (map (row_of n) (zrange2 a b)).
Proof.
  intros N A B D. assert (G : forall l, NoDup l -> (forall i, In i l -> a <= i < b) -> NoDup (map (row_of n) l)).
  { induction 1 as [|x l X NL IH]; intros R; cbn [map]; constructor.
    - intros Y. apply in_map_iff in Y. destruct Y as (y & E & Y). assert (y = x); [|subst; contradiction].
      pose proof (R x (or_introl eq_refl)). pose proof (R y (or_intror Y)). unfold row_of in E. destruct (y <? 0) eqn:E1, (x <? 0) eqn:E2; lia.
    - apply IH. intros i I. apply R. right; exact I. }
  apply G; [apply zrange2_NoDup|]. intros i I. apply In_zrange2. exact I.
Qed.

Theorem any_written f ct tp junk pjunk coadder rg : stamp_shapes f coadder -> counts_from_end f coadder -> range_names f rg -> named_once f rg ->
  m_cat f <> [] -> m_number_col f = true -> Forall (fun o => o_slots o <> []) (m_cat f) ->
  (forall j, named f rg j -> exists x fl, coadder j = Ok (x, fl) /\
     forall co o, x = Some co -> zget (m_cat f) j = Some o -> zlen (co_imflags co) <= o_ncut o - 1) ->
  psf_room f coadder rg tp ->
  exists rows f', write_coadds_any f ct tp junk pjunk coadder rg = Ok (rows, f').
Proof.
  intros HS HW RN ON NE NC SL HC PS. assert (TP : 0 <= tp) by (apply (PS []); [constructor|intros j []]).
  destruct (obj_data_total f NE NC SL) as (rows0 & RD). destruct (obj_data_ok _ _ RD) as (n & NM & N2 & R1). pose proof (weaken_rows _ _ _ R1) as R0. pose proof (rows0_len f rows0 R0) as RL.
  unfold write_coadds_any. rewrite RD. cbn [bind].
  destruct (match rg with Some r => r | None => (0, zlen (m_cat f)) end) as [a b] eqn:E.
  assert (RO : range_of f rg = zrange2 a b) by (destruct rg as [[x y]|]; injection E as <- <-; reflexivity).
  assert (AB : a < b -> - zlen rows0 <= a /\ b <= zlen rows0 /\ b - a <= zlen rows0).
  { intros L. rewrite RL. destruct rg as [[x y]|]; injection E as <- <-; cbn in RN, ON; lia. }
  assert (NM' : forall i, In i (zrange2 a b) -> - zlen rows0 <= i < zlen rows0 /\ named f rg (row_of (zlen rows0) i)).
  { intros i I. pose proof I as I'. apply In_zrange2 in I. assert (R : - zlen rows0 <= i < zlen rows0) by lia. split; [exact R|]. apply named_iff. exists i. rewrite RO. split; [exact I'|].
    rewrite <- RL. apply row_of_means. exact R. }
  assert (ND : NoDup (map (row_of (zlen rows0)) (zrange2 a b))).
  { destruct (Z_lt_le_dec a b) as [L|L]; [apply rows_NoDup; [apply zlen_nonneg|apply AB; exact L..]|].
    replace (zrange2 a b) with (@nil Z); [constructor|]. unfold zrange2, zrange. replace (Z.to_nat (b - a)) with O by lia. reflexivity. }
  destruct (room_fold f (add_types ct) coadder rows0 (zsum (map (fun o => o_box o ^ 2) (m_cat f))) tp HS HW R0 (zrange2 a b) []
    (mkWstate rows0 (reserve (add_types ct) (zsum (map (fun o => o_box o ^ 2) (m_cat f))) junk) (map pjunk (zrange tp)) 0 0 0 0)) as (st & F).
  - apply any_start.
  - constructor; cbn [ws_rows ws_row_start ws_size ws_psf_row_start ws_psf_size ws_ext ws_psf map].
    + reflexivity.
    + reflexivity.
    + intros t m T M. rewrite (reserve_has _ _ junk _ T) in M. injection M as <-. rewrite zlen_map, zlen_zrange; [reflexivity|]. rewrite reserved_eq. apply reserved_nonneg.
    + rewrite zlen_map, zlen_zrange by lia. reflexivity.
  - intros i I. apply (NM' i I).
  - exact ND.
  - cbn [app]. rewrite (zsum_cat (m_cat f)). transitivity (zsum (map (csz coadder) (zrange (zlen (m_cat f))) )).
    + apply zsum_incl; [intros x; unfold csz; destruct (coadder x) as [[[co|] fl]|]; nia|exact ND|].
      intros j J. apply in_map_iff in J. destruct J as (i & <- & I). apply In_zrange. rewrite <- RL. apply (row_of_means _ i (proj1 (NM' i I))).
    + assert (X : forall l, (forall j, In j l -> 0 <= j < zlen (m_cat f)) -> zsum (map (csz coadder) l) <= zsum (map (fun j => match zget (m_cat f) j with Some o => o_box o ^ 2 | None => 0 end) l)).
      { induction l as [|j l IH]; intros R; [reflexivity|]. cbn [map]. unfold zsum in *. cbn [fold_right]. specialize (IH (fun k K => R k (or_intror K))).
        destruct (zget_range_Some (m_cat f) j (R j (or_introl eq_refl))) as (o & O). rewrite O. enough (csz coadder j <= o_box o ^ 2) by lia.
        unfold csz. destruct (coadder j) as [[[co|] fl]|] eqn:C; try nia. destruct (HS j o co fl O C) as (_ & PL & _). destruct (PL TImage) as (_ & N1 & _). cbn [coadd_plane] in N1. rewrite N1. lia. }
      apply X. intros j J. apply In_zrange. exact J.
  - cbn [app]. apply (PS (map (row_of (zlen rows0)) (zrange2 a b)) ND). intros j J. apply in_map_iff in J. destruct J as (i & <- & I). apply (NM' i I).
  - intros i I. destruct (NM' i I) as (_ & NMi). destruct (HC _ NMi) as (x & fl & C & X). exists x, fl. split; [exact C|]. intros co r0 -> Z0.
    destruct (Forall2_zget _ _ _ R1 _ r0 Z0) as (o & O & _ & _ & _ & _ & _ & _ & B7 & _). specialize (X co o eq_refl O).
    rewrite B7, zlen_map, zlen_zrange by lia. rewrite Forall_forall in NM. specialize (NM o (zget_In _ _ _ O)). cbn beta in NM. lia.
  - rewrite F. cbn [bind]. do 2 eexists. reflexivity.
Qed.

(** The package's coadder counts from the end. *)
Theorem coadder_end c o f jm : m_number_col f = true -> counts_from_end f (get_coadd_obs c o f jm).
Proof. intros N j J. apply same_coadd. apply end_answers; assumption. Qed.

(** * Indices that name nothing *)
Lemma bind_refuses {A B} (x : res A) (k : A -> res B) : refuses x -> refuses (bind x k).
Proof. intros R a. destruct x as [y|e]; cbn [bind]; [destruct (R y); reflexivity|discriminate]. Qed.
Lemma py_outside {A} (l : list A) i : ~ (- zlen l <= i < zlen l) -> refuses (py_index l i).
Proof. intros O a H. apply py_ok_range in H. contradiction. Qed.
Lemma chk_outside f i k : ~ (- zlen (m_cat f) <= i < zlen (m_cat f)) -> refuses (check_indices f i k).
Proof. intros O a. unfold check_indices. destruct (_ <=? _); [discriminate|]. apply bind_refuses, py_outside. exact O. Qed.
Theorem end_outside f i k fuel fast b t : ~ (- zlen (m_cat f) <= i < zlen (m_cat f)) ->
  refuses (get_cutout f i k t) /\ refuses (get_mosaic f i t) /\ refuses (get_cutout_list f i t) /\ refuses (get_psf f i k) /\ refuses (get_psf_list f i) /\ refuses (get_jacobian f i k) /\ refuses (get_jacobian_matrix f i k) /\ refuses (get_jacobian_list f i) /\ refuses (get_cutout_rowcol f i k) /\ refuses (get_source_info f i k) /\ refuses (get_cweight_cutout f i k b) /\ refuses (get_cseg_cutout f i k) /\ refuses (get_uberseg fuel f i k fast) /\ refuses (get_uberseg_list fuel f i fast) /\ (m_number_col f = true -> refuses (get_number f i)).
Proof.
  intros O. pose proof (fun k => chk_outside f i k O) as C. pose proof (py_outside (m_cat f) i O) as P.
  assert (G : forall k t, refuses (get_cutout f i k t)) by (intros; unfold get_cutout; apply bind_refuses, C).
  assert (M : refuses (get_mosaic f i t)) by (unfold get_mosaic; apply bind_refuses, C).
  assert (W : forall b, refuses (get_cweight_cutout f i k b)) by (intros; unfold get_cweight_cutout; apply bind_refuses, G).
  split; [apply G|]. split; [exact M|]. split; [unfold get_cutout_list; apply bind_refuses; exact M|].
  split; [unfold get_psf; destruct (m_psf f); [apply bind_refuses, C|intros a; discriminate]|].
  split; [unfold get_psf_list; apply bind_refuses; (exact P || apply C)|].
  split; [unfold get_jacobian; apply bind_refuses; (exact P || apply C)|]. split; [unfold get_jacobian_matrix; apply bind_refuses; (exact P || apply C)|].
  split; [unfold get_jacobian_list; apply bind_refuses; (exact P || apply C)|]. split; [unfold get_cutout_rowcol; apply bind_refuses; (exact P || apply C)|].
  split; [unfold get_source_info; apply bind_refuses; (exact P || apply C)|]. split; [apply W|]. split; [unfold get_cseg_cutout; apply bind_refuses, G|].
  split; [unfold get_uberseg; apply bind_refuses, W|]. split; [unfold get_uberseg_list; apply bind_refuses; (exact P || apply C)|].
  intros N. unfold get_number. rewrite N. apply bind_refuses. exact P.
Qed.
