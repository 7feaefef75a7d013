(** The theorems on random numbers and on writing again. *)
From Coq Require Import Lia ZifyBool ZifyNat Qabs Lqa Qfield Permutation.
From Verif Require Import Base BaseLemmas Img ImgLemmas Types Reader BoundsM MakerLayout MakerWrite MakerFile Composite Coadd CoaddRng
  SpecTiles SpecFile SpecComposite SpecCoadd SpecCoaddRng ReadLemmas CalibLemmas CompositeLemmas OutlierLemmas
  CoaddLemmas CoaddLemmas2 CoaddLemmas3 CoaddLemmas4 CoaddLemmas5 CoaddLemmas6 CoaddRngLemmas CoaddRngLemmas2 CoaddRngLemmas3 CoaddRngLemmas4.
Open Scope Z_scope.

Lemma writes_hist f ct tp cs junk pjunk rows0 : coadd_obj_data f = Ok rows0 -> forall rgs mk mk' files, Forall range_from_zero rgs -> hist cs rows0 (cm_rows mk) ->
  coadd_writes f ct tp cs junk pjunk mk rgs = Ok (mk', files) -> hist cs rows0 (cm_rows mk').
Proof.
  intros R. induction rgs as [|rg rgs IH]; intros mk mk' files HR HH H; cbn [coadd_writes] in H; [inversion H; subst; exact HH|].
  apply bind_ok in H. destruct H as ([m1 f1] & H1 & H). apply bind_ok in H. destruct H as ([m2 l2] & H2 & H). cbn [fst snd] in *. inversion H; subst; clear H.
  inversion HR; subst. destruct (write_hist _ _ _ _ _ _ _ _ _ _ _ R H3 HH H1) as (HH' & _). exact (IH _ _ _ H4 HH' H2).
Qed.

Lemma new_hist f mk cs rows0 : coadd_obj_data f = Ok rows0 -> coadd_maker f = Ok mk -> hist cs rows0 (cm_rows mk) /\ cm_pos mk = 0.
Proof.
  intros R H. unfold coadd_maker in H. rewrite R in H. cbn [bind] in H. inversion H; subst. cbn [cm_rows cm_pos]. split; [|reflexivity].
  split; [apply Forall2_rowsim_refl|]. intros j r J. left. eapply obj_data_rows; [exact R|exact J].
Qed.

Lemma app_inv_length {A} (a b c d : list A) : a ++ b = c ++ d -> length a = length c -> a = c /\ b = d.
Proof.
  revert c. induction a as [|x a IH]; intros [|y c] H L; try discriminate; cbn [app] in H; [split; [reflexivity|exact H]|].
  inversion H; subst. destruct (IH c H2) as (-> & ->); [cbn in L; lia|]. split; reflexivity.
Qed.

Lemma calls_app cs : forall js1 js2 p l p', coadd_calls cs p (js1 ++ js2) = Ok (l, p') ->
  exists l1 q l2, coadd_calls cs p js1 = Ok (l1, q) /\ coadd_calls cs q js2 = Ok (l2, p') /\ l = l1 ++ l2.
Proof.
  induction js1 as [|j js1 IH]; intros js2 p l p' H; cbn [app coadd_calls] in *; [exists [], p, l; repeat split; exact H|].
  apply bind_ok in H. destruct H as ([x q] & X & H). apply bind_ok in H. destruct H as ([l0 p0] & L & H). cbn [fst snd] in *. inversion H; subst; clear H.
  destruct (IH _ _ _ _ L) as (l1 & q1 & l2 & C1 & C2 & ->). rewrite X; cbn [bind snd]. rewrite C1; cbn [bind fst snd].
  exists (x :: l1), q1, l2. split; [reflexivity|]. split; [exact C2|reflexivity].
Qed.

Lemma zrange2_split a j b : a <= j < b -> zrange2 a b = zrange2 a j ++ j :: zrange2 (j + 1) b.
Proof.
  intros H. apply list_zget_ext.
  - rewrite zlen_app, zlen_cons. unfold zrange2. rewrite !zlen_map, !zlen_zrange by lia. lia.
  - intros k K. unfold zrange2 in K |- *. rewrite zlen_map, zlen_zrange in K by lia. rewrite zget_map, zget_zrange by lia. cbn [option_map].
    rewrite zget_app, zlen_map, zlen_zrange by lia. dif E.
    + rewrite zget_map, zget_zrange by lia. reflexivity.
    + destruct (Z.eq_dec k (j - a)) as [->|N].
      * replace (j - a - (j - a)) with 0 by lia. unfold zget. cbn. f_equal. lia.
      * unfold zget. replace (k - (j - a) <? 0) with false by lia. replace (Z.to_nat (k - (j - a))) with (S (Z.to_nat (k - (j - a) - 1))) by lia. cbn [nth_error].
        pose proof (zget_map (fun i => j + 1 + i) (zrange (b - (j + 1))) (k - (j - a) - 1)) as G. rewrite zget_zrange in G by lia.
        unfold zget in G. replace (k - (j - a) - 1 <? 0) with false in G by lia. rewrite G. cbn. f_equal. lia.
Qed.

Lemma map_Ok_app {A} (l1 l2 : list A) : map (@Ok A) (l1 ++ l2) = map Ok l1 ++ map Ok l2. Proof. apply map_app. Qed.

(** The call for [j] is made where the calls for the objects before it end. *)
Lemma calls_at cs a b p l p' coadder j : coadd_calls cs p (zrange2 a b) = Ok (l, p') -> map coadder (zrange2 a b) = map Ok l -> a <= j < b ->
  exists l1 q q' x, coadd_calls cs p (zrange2 a j) = Ok (l1, q) /\ coadder j = Ok x /\ cs q j = Ok (x, q').
Proof.
  intros H M J. rewrite (zrange2_split a j b J) in H, M. apply calls_app in H. destruct H as (l1 & q & l2 & C1 & C2 & ->).
  cbn [coadd_calls] in C2. apply bind_ok in C2. destruct C2 as ([x q'] & X & C2). apply bind_ok in C2. destruct C2 as ([l3 p3] & L & C2). cbn [fst snd] in *. inversion C2; subst; clear C2.
  pose proof (calls_len _ _ _ _ _ C1) as L1. rewrite !map_app in M. cbn [map] in M.
  apply app_inv_length in M; [|rewrite !map_length; lia]. destruct M as (_ & M). inversion M.
  exists l1, q, q', x. split; [exact C1|]. split; [assumption|exact X].
Qed.

Lemma same_cutout f1 f2 j k t : m_ext f1 = m_ext f2 -> zlen (m_cat f1) = zlen (m_cat f2) -> 0 <= j -> zget (m_cat f1) j = zget (m_cat f2) j ->
  get_cutout f1 j k t = get_cutout f2 j k t.
Proof.
  intros E L J H. unfold get_cutout, check_indices, get_extension. rewrite L, E.
  dif E2; [reflexivity|]. rewrite !py_index_nonneg by lia. rewrite H. reflexivity.
Qed.
Lemma same_psf f1 f2 j k : m_psf f1 = m_psf f2 -> m_psf_cols f1 = m_psf_cols f2 -> zlen (m_cat f1) = zlen (m_cat f2) -> 0 <= j -> zget (m_cat f1) j = zget (m_cat f2) j ->
  get_psf f1 j k = get_psf f2 j k.
Proof.
  intros E C L J H. unfold get_psf, check_indices, get_psf_shape. rewrite L, E, C.
  destruct (m_psf f2); [|reflexivity]. dif E2; [reflexivity|]. rewrite !py_index_nonneg by lia. rewrite H. reflexivity.
Qed.

(** Asked objects are written right, whatever was written before. *)
Lemma asked_written c o g err f jm ct tp junk pjunk mk0 rgs mk files rg mk' f' j ob :
  reject_keeps_shapes o -> coadds_stamps o -> interp_total o -> noise_apart o ->
  coadd_maker f = Ok mk0 -> Forall range_from_zero rgs -> range_from_zero rg -> 0 <= tp ->
  coadd_writes f ct tp (get_coadd_obs_r c o g err f jm) junk pjunk mk0 rgs = Ok (mk, files) ->
  coadd_write f ct tp (get_coadd_obs_r c o g err f jm) junk pjunk mk rg = Ok (mk', f') ->
  asked f rg j -> zget (m_cat f) j = Some ob ->
  exists l1 q q' x fl r, coadd_calls (get_coadd_obs_r c o g err f jm) (cm_pos mk) (zrange2 (first_asked rg) j) = Ok (l1, q) /\
    get_coadd_obs_r c o g err f jm q j = Ok (x, fl, q') /\ zget (cm_rows mk') j = Some r /\ zget (m_cat f') j = Some (cr_obj r) /\
    match x with
    | None => o_ncut (cr_obj r) = 0 /\ cr_coadd_flags r = fl
    | Some co => written_row co fl r /\ (forall t, In t ct \/ t = TOrmask \/ t = TNoise -> get_cutout f' j 0 t = Ok (coadd_plane co t)) /\ get_psf f' j 0 = Ok (co_psf co)
    end.
Proof.
  intros HR HC HI HN HM RS RG TP WS W AJ HO. set (cs := get_coadd_obs_r c o g err f jm) in *.
  assert (HM' := HM). unfold coadd_maker in HM'. apply bind_ok in HM'. destruct HM' as (rows0 & R0 & _).
  destruct (new_hist f mk0 cs rows0 R0 HM) as (H0 & _).
  assert (H1 : hist cs rows0 (cm_rows mk)) by (eapply writes_hist; eassumption).
  destruct (write_hist _ _ _ _ _ _ _ _ _ _ _ R0 RG H1 W) as (H2 & l & coadder & rows1 & f1 & C & M & A & WC & X1 & X2 & X3 & X4 & O).
  assert (JL : In j (asked_list f rg)) by (apply asked_list_In; exact AJ).
  destruct (calls_at _ _ _ _ _ _ _ j C M) as (l1 & q & q' & [x fl] & C1 & CJ & Q); [apply In_zrange2; exact JL|].
  assert (FA : first_asked rg = fst (lo_hi f rg)) by (destruct rg as [[? ?]|]; reflexivity).
  assert (JR : 0 <= j < zlen (m_cat f)) by (eapply zget_Some_range; exact HO).
  destruct (obj_data_ok _ _ R0) as (n & _ & _ & F0). destruct (Forall2_zget_l _ _ _ F0 j ob HO) as (r0 & G0 & _).
  destruct H1 as (S1 & NC). destruct (Forall2_zget_l _ _ _ S1 j r0 G0) as (r & G1 & RSJ).
  destruct (O j r0 r G0 G1) as (a1 & a2 & A1 & A2 & OC).
  assert (CAT : zget (m_cat f') j = Some (cr_obj a2)) by (rewrite X4, zget_map, A2; reflexivity).
  exists l1, q, q', x, fl, a2. split; [rewrite FA; exact C1|]. split; [exact Q|]. split; [exact A2|]. split; [exact CAT|].
  destruct OC as [(NI & _)|[(_ & fl' & CJ' & E1 & E2)|(_ & co & fl' & u & v & CJ' & E1 & E2)]]; [contradiction| |]; rewrite CJ in CJ'; inversion CJ'; subst; clear CJ'.
  - split; [|reflexivity]. cbn [failed_row cr_obj]. destruct (NC j r G1) as [Z|(_ & q2 & co & fl2 & q3 & MC)]; [exact Z|exfalso].
    destruct (coadd_obs_r_two _ _ _ _ g err _ _ _ q _ _ _ _ _ HI HR HN HO MC) as (r' & T & B). fold cs in T. rewrite Q in T. inversion T; subst. exact B.
  - destruct (filled_two _ _ _ _ _ _ _ RSJ E2) as (b1 & B1 & B2 & B3 & B4). rewrite E1 in B1. inversion B1; subst b1; clear B1.
    assert (ST : stamp_shapes f coadder).
    { intros i oi coi fli OI CI. destruct (A i _ CI) as (_ & p1 & p2 & P). apply (stamps_r_coadder c o g err f jm HR HC p1 i oi coi fli OI). fold cs. rewrite P. reflexivity. }
    assert (LO : 0 <= lo_of rg) by (destruct rg as [[a b]|]; [exact RG|cbn; lia]).
    destruct (write_coadds_ok _ _ _ _ _ _ _ _ _ ST LO TP WC) as (Y1 & Y2 & _ & Y3 & _).
    destruct (Y3 j co fl' AJ JR CJ) as (PX & PP).
    assert (LL : zlen (m_cat f') = zlen (m_cat f1)).
    { rewrite X4, Y1, !zlen_map. destruct H2 as (S2 & _). apply Forall2_len in S2. apply Forall2_len in F0. unfold zlen in *. lia. }
    assert (GG : zget (m_cat f') j = zget (m_cat f1) j) by (rewrite CAT, Y1, zget_map, A1; cbn; congruence).
    split; [|split].
    + pose proof (filled_obj _ _ _ _ _ _ E2) as (s & rest & K1 & K2 & K3 & K4 & K5 & K6 & K7 & K8 & K9).
      split; [exact K4|]. split; [exact K6|]. split; [exact K7|]. split; [eexists; exact K9|].
      exists (filled_slot s co u v), rest. split; [exact K2|]. repeat split.
    + intros t T. rewrite <- PX; [apply same_cutout; try assumption; lia|]. unfold add_types. cbn [fold_left].
      destruct T as [T|[->| ->]].
      * destruct (existsb (ctype_eqb TOrmask) ct) eqn:E3; [destruct (existsb (ctype_eqb TNoise) ct)|destruct (existsb (ctype_eqb TNoise) (ct ++ [TOrmask]))]; rewrite ?in_app_iff; tauto.
      * assert (In TOrmask (if existsb (ctype_eqb TOrmask) ct then ct else ct ++ [TOrmask])).
        { destruct (existsb (ctype_eqb TOrmask) ct) eqn:E3; [|apply in_app_iff; right; left; reflexivity].
          apply existsb_exists in E3. destruct E3 as (z & Z1 & Z2). destruct z; try discriminate. exact Z1. }
        destruct (existsb (ctype_eqb TNoise) _); [assumption|]. apply in_app_iff. left. assumption.
      * destruct (existsb (ctype_eqb TNoise) (if existsb (ctype_eqb TOrmask) ct then ct else ct ++ [TOrmask])) eqn:E3; [|apply in_app_iff; right; left; reflexivity].
        apply existsb_exists in E3. destruct E3 as (z & Z1 & Z2). destruct z; try discriminate. exact Z1.
    + rewrite <- PP. apply same_psf; try assumption; lia.
Qed.

(** * Statements *)

Lemma object_numbers c o g err f jm p iobj ob r fl p' : reject_keeps_shapes o -> zget (m_cat f) iobj = Some ob ->
  get_coadd_obs_r c o g err f jm p iobj = Ok (r, fl, p') ->
  (o_ncut ob = 1 /\ r = None /\ p' = p) \/ (1 < o_ncut ob /\ coadded_from c o g err f iobj p p' r).
Proof.
  intros HR HO H. unfold get_coadd_obs_r in H. apply bind_ok in H. destruct H as ([[l fs] q] & O & H).
  destruct (get_obslist_r_spec _ _ _ _ _ _ _ _ _ _ _ HR HO O) as [(N1 & -> & _ & ->)|(N1 & ims & wts & bms & ds & rs & E1 & E2 & _ & E3 & E4)].
  - left. inversion H; subst. repeat split; assumption.
  - right. split; [exact N1|]. exists ims, wts, bms, ds, l, rs. split; [exact E1|]. split; [exact E2|].
    destruct l as [|ob0 l]; [inversion H; subst; split; [exact E3|]; split; [exact E4|reflexivity]|].
    apply bind_ok in H. destruct H as (om & OM & H). apply bind_ok in H. destruct H as ([[[[[[im wt] noise] jac] psf] pr] pc] & OC & H).
    apply bind_ok in H. destruct H as (seg & SG & H). apply bind_ok in H. destruct H as (fls & FL & H). inversion H; subst.
    split; [exact E3|]. split; [exact E4|]. exact OC.
Qed.

Lemma tiles_le a rs b : tiles a rs b -> a <= b.
Proof. induction 1; lia. Qed.

Lemma position_grows c o g err f jm p iobj ob r fl p' : reject_keeps_shapes o -> zget (m_cat f) iobj = Some ob ->
  get_coadd_obs_r c o g err f jm p iobj = Ok (r, fl, p') -> p <= p'.
Proof.
  intros HR HO H. destruct (object_numbers _ _ _ _ _ _ _ _ _ _ _ _ HR HO H) as [(_ & _ & ->)|(_ & ? & ? & ? & ? & ? & rs & _ & _ & T & _)]; [lia|].
  eapply tiles_le. exact T.
Qed.

Lemma calls_tile c o g err f jm : reject_keeps_shapes o -> forall js p l p', (forall j, In j js -> exists ob, zget (m_cat f) j = Some ob) ->
  coadd_calls (get_coadd_obs_r c o g err f jm) p js = Ok (l, p') ->
  exists rs, tiles p rs p' /\ length rs = length js /\ length l = length js /\
    forall k j x a b, zget js k = Some j -> zget l k = Some x -> zget rs k = Some (a, b) -> get_coadd_obs_r c o g err f jm a j = Ok (fst x, snd x, b).
Proof.
  intros HR. induction js as [|i js IH]; intros p l p' HO H; cbn [coadd_calls] in H.
  - inversion H; subst. exists []. split; [constructor|]. split; [reflexivity|]. split; [reflexivity|]. intros k j x a b K. apply zget_Some_range in K. unfold zlen in K. cbn in K. lia.
  - apply bind_ok in H. destruct H as ([[x fl] q] & X & H). apply bind_ok in H. destruct H as ([l1 p1] & L & H). cbn [fst snd] in *. inversion H; subst; clear H.
    destruct (IH q l1 p') as (rs & T & L1 & L2 & R); [intros j J; apply HO; right; exact J|exact L|].
    destruct (HO i (or_introl eq_refl)) as (ob & OB).
    exists ((p, q) :: rs). split; [constructor; [eapply position_grows; eassumption|exact T]|]. split; [cbn [length]; lia|]. split; [cbn [length]; lia|].
    intros k j y a b. unfold zget. destruct (k <? 0) eqn:EK; [discriminate|]. destruct (Z.to_nat k) as [|m] eqn:EM; cbn [nth_error].
    + intros A1 A2 A3. inversion A1; inversion A2; inversion A3; subst. exact X.
    + intros A1 A2 A3. apply (R (Z.of_nat m) j y a b); unfold zget; replace (Z.of_nat m <? 0) with false by lia; rewrite Nat2Z.id; assumption.
Qed.

(** A write draws the numbers from where the maker is on, object after object. *)
Lemma write_tile c o g err f jm ct tp junk pjunk mk rg mk' f' : reject_keeps_shapes o -> range_inside f rg ->
  coadd_write f ct tp (get_coadd_obs_r c o g err f jm) junk pjunk mk rg = Ok (mk', f') ->
  exists rs, tiles (cm_pos mk) rs (cm_pos mk') /\
    (forall j, asked f rg j -> exists a b x fl, zget rs (j - first_asked rg) = Some (a, b) /\ get_coadd_obs_r c o g err f jm a j = Ok (x, fl, b)).
Proof.
  intros HR HI H. apply coadd_write_run in H. destruct H as (l & coadder & st & C & _).
  assert (FA : fst (lo_hi f rg) = first_asked rg) by (destruct rg as [[? ?]|]; reflexivity).
  assert (AK : forall j, asked f rg j -> fst (lo_hi f rg) <= j < snd (lo_hi f rg)) by (intros j A; apply asked_list_In in A; apply In_zrange2 in A; exact A).
  destruct (calls_tile c o g err f jm HR (asked_list f rg) (cm_pos mk) l (cm_pos mk')) as (rs & T & L1 & L2 & R); [|exact C|].
  { intros j J. apply asked_list_In in J. destruct (zget_range_Some (m_cat f) j) as (ob & OB); [|exists ob; exact OB]. unfold asked in J. destruct rg as [[a b]|]; cbn [range_inside] in HI; lia. }
  exists rs. split; [exact T|]. intros j J. apply AK in J. rewrite FA in *. set (k := j - first_asked rg).
  assert (LK : length (asked_list f rg) = Z.to_nat (snd (lo_hi f rg) - first_asked rg)) by (unfold asked_list, zrange2; rewrite map_length, zrange_length, FA; reflexivity).
  destruct (zget_range_Some rs k) as ([a b] & RK); [unfold zlen, k; lia|]. destruct (zget_range_Some l k) as ([x fl] & XK); [unfold zlen, k; lia|].
  exists a, b, x, fl. split; [exact RK|]. apply (R k j (x, fl) a b); [|exact XK|exact RK].
  unfold asked_list, zrange2. rewrite FA, zget_map, zget_zrange by (unfold k; lia). cbn. f_equal. unfold k. lia.
Qed.

Lemma rows_agree co co' fl r r' : written_row co fl r -> written_row co' fl r' -> but_noise (Some co) (Some co') -> same_row r r'.
Proof.
  intros (A1 & A2 & A3 & _ & s & rest & A4 & A5 & A6 & A7 & A8 & A9 & A10 & A11 & A12) (B1 & B2 & B3 & _ & s' & rest' & B4 & B5 & B6 & B7 & B8 & B9 & B10 & B11 & B12)
    (C1 & C2 & C3 & C4 & C5 & C6 & C7 & C8 & C9 & C10 & C11).
  split; [congruence|]. split; [congruence|]. intros _. split; [congruence|]. exists s, s'. rewrite A4, B4. split; [reflexivity|]. split; [reflexivity|].
  rewrite C6 in *. repeat split; congruence.
Qed.

(** Two writes, by makers with any seeds and histories. *)
Lemma two_writes c o f jm ct g err tp junk pjunk mk0 rgs mk files rg mk' f1 g' err' tp' junk' pjunk' rgs' mkb files' rg' mkb' f2 j :
  reject_keeps_shapes o -> coadds_stamps o -> interp_total o -> noise_apart o -> coadd_maker f = Ok mk0 ->
  Forall range_from_zero rgs -> range_from_zero rg -> 0 <= tp -> Forall range_from_zero rgs' -> range_from_zero rg' -> 0 <= tp' ->
  coadd_writes f ct tp (get_coadd_obs_r c o g err f jm) junk pjunk mk0 rgs = Ok (mk, files) ->
  coadd_write f ct tp (get_coadd_obs_r c o g err f jm) junk pjunk mk rg = Ok (mk', f1) ->
  coadd_writes f ct tp' (get_coadd_obs_r c o g' err' f jm) junk' pjunk' mk0 rgs' = Ok (mkb, files') ->
  coadd_write f ct tp' (get_coadd_obs_r c o g' err' f jm) junk' pjunk' mkb rg' = Ok (mkb', f2) ->
  asked f rg j -> asked f rg' j -> 0 <= j < zlen (m_cat f) ->
  (forall t, In t ct \/ t = TOrmask -> t <> TNoise -> get_cutout f1 j 0 t = get_cutout f2 j 0 t) /\ get_psf f1 j 0 = get_psf f2 j 0 /\
  exists r r', zget (cm_rows mk') j = Some r /\ zget (cm_rows mkb') j = Some r' /\ same_row r r'.
Proof.
  intros HR HC HI HN HM R1 R2 T1 R3 R4 T2 W1 W2 W3 W4 J1 J2 JR. destruct (zget_range_Some (m_cat f) j) as (ob & HO); [exact JR|].
  destruct (asked_written _ _ _ _ _ _ _ _ _ _ _ _ _ _ _ _ _ _ _ HR HC HI HN HM R1 R2 T1 W1 W2 J1 HO) as (l1 & q & q' & x & fl & r & _ & Q & G & GC & M).
  destruct (asked_written _ _ _ _ _ _ _ _ _ _ _ _ _ _ _ _ _ _ _ HR HC HI HN HM R3 R4 T2 W3 W4 J2 HO) as (l1' & p & p' & y & fl' & r' & _ & P & G' & GC' & M').
  destruct (coadd_obs_r_two _ _ _ _ g' err' _ _ _ p _ _ _ _ _ HI HR HN HO Q) as (y' & E & B). rewrite P in E. inversion E; subst y' fl'; clear E.
  destruct x as [co|], y as [co'|]; try (exfalso; exact B).
  - destruct M as (MW & MP & MQ), M' as (MW' & MP' & MQ'). pose proof B as (C1 & C2 & C3 & C4 & C5 & C6 & C7 & C8 & C9 & C10 & C11).
    split; [|split].
    + intros t T N. rewrite MP, MP' by tauto. f_equal. destruct t; cbn [coadd_plane]; congruence.
    + rewrite MQ, MQ'. f_equal. congruence.
    + exists r, r'. split; [exact G|]. split; [exact G'|]. eapply rows_agree; eassumption.
  - destruct M as (M1 & M2), M' as (M1' & M2').
    assert (Z : forall ff rr (jj : Z), 0 <= jj -> zget (m_cat ff) jj = Some (cr_obj rr) -> o_ncut (cr_obj rr) = 0 -> check_indices ff jj (Some 0) = Err ValueError).
    { intros ff rr jj JJ A1 A2. unfold check_indices. pose proof (zget_Some_range _ _ _ A1). dif E; [reflexivity|]. rewrite py_index_nonneg, A1 by lia. cbn [bind]. rewrite A2. reflexivity. }
    assert (P1 : m_psf f1 <> None /\ m_psf f2 <> None).
    { unfold coadd_write in W2, W4. destruct (match rg with Some r => r | None => _ end), (match rg' with Some r => r | None => _ end).
      apply bind_ok in W2. destruct W2 as (? & _ & W2). apply bind_ok in W4. destruct W4 as (? & _ & W4). inversion W2; inversion W4. split; discriminate. }
    split; [|split].
    + intros t T N. unfold get_cutout. rewrite (Z f1 r j), (Z f2 r' j) by (assumption || lia). reflexivity.
    + unfold get_psf. destruct P1 as (P1 & P2). destruct (m_psf f1); [|destruct (P1 eq_refl)]. destruct (m_psf f2); [|destruct (P2 eq_refl)].
      rewrite (Z f1 r j), (Z f2 r' j) by (assumption || lia). reflexivity.
    + exists r, r'. split; [exact G|]. split; [exact G'|]. split; [congruence|]. split; [congruence|]. intros K. lia.
Qed.

(** The same seed and the same first object: the noise as well. *)
Lemma same_start c o f jm ct g err tp junk pjunk mk0 rg mk' f1 tp' junk' pjunk' rg' mkb' f2 j :
  reject_keeps_shapes o -> coadds_stamps o -> interp_total o -> noise_apart o -> coadd_maker f = Ok mk0 ->
  range_from_zero rg -> 0 <= tp -> range_from_zero rg' -> 0 <= tp' -> first_asked rg = first_asked rg' ->
  coadd_write f ct tp (get_coadd_obs_r c o g err f jm) junk pjunk mk0 rg = Ok (mk', f1) ->
  coadd_write f ct tp' (get_coadd_obs_r c o g err f jm) junk' pjunk' mk0 rg' = Ok (mkb', f2) ->
  asked f rg j -> asked f rg' j -> 0 <= j < zlen (m_cat f) -> get_cutout f1 j 0 TNoise = get_cutout f2 j 0 TNoise.
Proof.
  intros HR HC HI HN HM R2 T1 R4 T2 FA W2 W4 J1 J2 JR. destruct (zget_range_Some (m_cat f) j) as (ob & HO); [exact JR|].
  assert (W1 : coadd_writes f ct tp (get_coadd_obs_r c o g err f jm) junk pjunk mk0 [] = Ok (mk0, [])) by reflexivity.
  assert (W3 : coadd_writes f ct tp' (get_coadd_obs_r c o g err f jm) junk' pjunk' mk0 [] = Ok (mk0, [])) by reflexivity.
  destruct (asked_written _ _ _ _ _ _ _ _ _ _ _ _ _ _ _ _ _ _ _ HR HC HI HN HM (Forall_nil _) R2 T1 W1 W2 J1 HO) as (l1 & q & q' & x & fl & r & L & Q & G & GC & M).
  destruct (asked_written _ _ _ _ _ _ _ _ _ _ _ _ _ _ _ _ _ _ _ HR HC HI HN HM (Forall_nil _) R4 T2 W3 W4 J2 HO) as (l1' & p & p' & y & fl' & r' & L' & P & G' & GC' & M').
  rewrite FA, L' in L. inversion L; subst. rewrite P in Q. inversion Q; subst.
  destruct x as [co|].
  - destruct M as (_ & M & _), M' as (_ & M' & _). rewrite M, M' by tauto. reflexivity.
  - destruct M as (M1 & M2), M' as (M1' & M2').
    assert (Z : forall ff rr (jj : Z), 0 <= jj -> zget (m_cat ff) jj = Some (cr_obj rr) -> o_ncut (cr_obj rr) = 0 -> check_indices ff jj (Some 0) = Err ValueError).
    { intros ff rr jj JJ A1 A2. unfold check_indices. pose proof (zget_Some_range _ _ _ A1). dif E; [reflexivity|]. rewrite py_index_nonneg, A1 by lia. cbn [bind]. rewrite A2. reflexivity. }
    unfold get_cutout. rewrite (Z f1 r j), (Z f2 r' j) by (assumption || lia). reflexivity.
Qed.

(** * Counterexamples *)
From Verif Require Import ExampleData ExampleCoadd ExampleCoaddRng CoaddLemmas7.

Lemma ex_apart n : noise_apart (ex_oracle n).
Proof. intros l l' F. destruct F as [|x y l l' B F]; cbn; [reflexivity|]. destruct B as (-> & -> & _ & _ & -> & _ & -> & _). repeat split. Qed.

Lemma noise_differs : exists f mk mk1 f1 mk2 f2 im1 im2, ex_cfile = Ok f /\ coadd_maker f = Ok mk /\
  ex_write f mk None = Ok (mk1, f1) /\ ex_write f mk (Some (1, 2)) = Ok (mk2, f2) /\
  get_cutout f1 1 0 TNoise = Ok im1 /\ get_cutout f2 1 0 TNoise = Ok im2 /\ px im1 0 0 = Some 48%Q /\ px im2 0 0 = Some 0%Q.
Proof.
  do 8 eexists. split; [vm_compute; reflexivity|]. split; [vm_compute; reflexivity|]. split; [vm_compute; reflexivity|]. split; [vm_compute; reflexivity|].
  split; [vm_compute; reflexivity|]. split; [vm_compute; reflexivity|]. split; reflexivity.
Qed.

Lemma stale_rows : exists f mk mk1 f1 mk2 f2 ob im1 im2 im, ex_cfile = Ok f /\ coadd_maker f = Ok mk /\
  ex_write f mk (Some (0, 1)) = Ok (mk1, f1) /\ ex_write f mk1 (Some (1, 2)) = Ok (mk2, f2) /\
  ~ asked f (Some (1, 2)) 0 /\ zget (m_cat f2) 0 = Some ob /\ o_ncut ob = 1 /\
  get_cutout f1 0 0 TImage = Ok im1 /\ get_cutout f2 0 0 TImage = Ok im2 /\ im2 <> im1 /\
  get_cutout f2 1 0 TImage = Ok im /\ im2 = im /\ ~ (exists e, tiles 0 (cut_ranges (m_cat f2)) e).
Proof.
  do 10 eexists. split; [vm_compute; reflexivity|]. split; [vm_compute; reflexivity|]. split; [vm_compute; reflexivity|]. split; [vm_compute; reflexivity|].
  split; [cbn; lia|]. split; [vm_compute; reflexivity|]. split; [reflexivity|].
  split; [vm_compute; reflexivity|]. split; [vm_compute; reflexivity|]. split; [discriminate|]. split; [vm_compute; reflexivity|]. split; [reflexivity|].
  intros (e & T). vm_compute in T. inversion T as [|? ? ? ? _ T2]; subst. inversion T2.
Qed.
