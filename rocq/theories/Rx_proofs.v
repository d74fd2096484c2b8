(** Proofs for C81. *)
From Verif Require Import Base Bitstring Bits_model Bits_proofs Bitstream_model Bitstream_proofs Time_model Time_proofs RtcmStation_spec RtcmEph_model RtcmEph_spec SbpEph_model RtcmLegacy_model RtcmMsm_model RtcmMsm_spec RtcmMsm_proofs Signals_model Signals_spec Signals_proofs
  Double_model Sbp2Rtcm_model Sbp2Msm_model MsmVal_model MsmVal_spec MsmWire_spec MsmWire_proofs Options_model MsmRx_spec MsmRx_proofs LegVal_model LegRx_model LegRx_proofs ObsBuffer_model ObsBuffer_spec ObsBuffer_proofs ObsExcl_spec ObsExcl_proofs
  RtcmLayout_spec Properties_layout Properties_signals Properties_msmrx Properties_legrx LegRx_spec Rx_model Rx_spec.
Local Open Scope Z_scope.

(** *** bits of a payload *)
Lemma number_bits p : bytes p -> 2 <= len p -> message_type p = number_of p /\ 0 <= number_of p < 4096.
Proof.
  intros B L. assert (Q : len (take 12 (bits_of_bytes p)) = 12) by (rewrite len_take, len_bits_of_bytes; lia).
  assert (R : 0 <= number_of p < 4096) by (unfold number_of; pose proof (val_be_range (take 12 (bits_of_bytes p))) as V; rewrite Q in V; exact V). split; [|exact R].
  apply (Ssr_proofs.message_number_bits p (number_of p) [] B R). exists (drop 12 (bits_of_bytes p)).
  cbn [fields_bits flat_map fbits]. rewrite app_nil_r. unfold number_of, fbits. cbn [fst snd].
  replace (Z.to_nat 12) with (length (take 12 (bits_of_bytes p))) by (unfold len in Q; lia). rewrite bits_be_val, take_drop. reflexivity.
Qed.
Lemma multiple_bit p : bytes p -> 7 <= len p -> getbitu p 54 1 = Z.b2z (more_follow p).
Proof.
  intros B L. rewrite getbitu_spec by lia. change (Z.to_nat 1) with 1%nat.
  assert (E : bits_of_bytes p = bits_at p 0 54 ++ bits_at p 54 1 ++ bits_at p 55 1 ++ bits_of_bytes (drop 7 p)).
  { rewrite <- (take_drop 7 p) at 1. rewrite bits_of_bytes_app. change 7 with (Z.of_nat 7) at 1. rewrite bits_of_bytes_take by (assumption || lia).
    change (8 * 7)%nat with (54 + (1 + 1))%nat. rewrite !bits_at_app. rewrite <- !app_assoc. reflexivity. }
  unfold more_follow. rewrite E. rewrite znth_app_r by (unfold len; rewrite length_bits_at; lia). unfold len. rewrite length_bits_at. change (54 - Z.of_nat 54) with 0.
  cbn [bits_at app]. unfold znth. cbn [Z.to_nat nth]. unfold val_be. cbn [fold_left]. destruct (bitat p 54); reflexivity.
Qed.
Lemma carries_facts ty h w p : bytes p -> 4 <= ty <= 7 -> carries ty h w p ->
  7 <= len p /\ number_of p = mh_num h /\ more_follow p = negb (mh_multiple h =? 0).
Proof.
  intros B TY (Hh & Hw & pad & E). pose proof Hh as (H1 & _ & _ & _ & HM & _ & _ & _ & _ & _ & _ & L1 & L2 & _). pose proof (type_num ty _ TY H1) as NR.
  assert (FB : forall a b, fields_bits (a ++ b) = fields_bits a ++ fields_bits b) by (intros; unfold fields_bits; apply flat_map_app).
  set (tw := if cons_eqb (to_constellation (mh_num h)) cGLO then [(3, mh_tow h / DAY_MS); (27, mh_tow h mod DAY_MS)] else [(30, mh_tow h)]).
  assert (TL : len (fields_bits tw) = 30) by (unfold tw; destruct (cons_eqb _ _); unfold fields_bits, fbits; cbn [flat_map fst snd]; rewrite ?len_app, ?len_bits_be, ?len_nil; reflexivity).
  assert (E1 : exists r, bits_of_bytes p = bits_be 12 (mh_num h) ++ bits_be 12 (mh_stn h) ++ fields_bits tw ++ bits_be 1 (mh_multiple h) ++ r /\ 64 <= len r).
  { unfold wire_header in E. fold tw in E. rewrite <- !app_assoc in E. rewrite !FB in E. rewrite <- !app_assoc in E.
    change (fields_bits [(12, mh_num h); (12, mh_stn h)]) with (bits_be 12 (mh_num h) ++ bits_be 12 (mh_stn h) ++ []) in E. rewrite app_nil_r in E.
    match type of E with _ = _ ++ _ ++ fields_bits ?l ++ ?z => change (fields_bits l) with (bits_be 1 (mh_multiple h) ++ fields_bits (tl l)) in E end.
    rewrite <- !app_assoc in E. eexists. split; [exact E|]. rewrite !len_app.
    assert (FL : forall l, len (fields_bits (flags l)) = len l).
    { unfold flags, fields_bits. induction l as [|x l IH]; [reflexivity|]. cbn [map flat_map]. rewrite len_app, IH, len_cons. unfold fbits. cbn [fst snd]. rewrite len_bits_be. lia. }
    rewrite !FL, L1. repeat match goal with |- context[len ?x] => lazymatch x with sat_mask _ => fail | _ => pose proof (len_nonneg x); generalize dependent (len x); intros end end. lia. }
  destruct E1 as (r & E1 & LR). clear E.
  assert (LP : 8 * len p = 12 + (12 + (30 + (1 + len r)))) by (rewrite <- len_bits_of_bytes, E1, !len_app, !len_bits_be, TL; reflexivity).
  split; [lia|]. split.
  - unfold number_of. rewrite E1. rewrite take_app_eq by apply len_bits_be. rewrite val_bits_be. apply Z.mod_small. change (2 ^ Z.of_nat 12) with 4096. lia.
  - unfold more_follow. rewrite E1. rewrite znth_app_r by (rewrite len_bits_be; lia). rewrite znth_app_r by (rewrite !len_bits_be; lia). rewrite znth_app_r by (rewrite !len_bits_be, TL; lia). rewrite !len_bits_be, TL. change (54 - Z.of_nat 12 - Z.of_nat 12 - 30) with 0.
    unfold ubits in HM. assert (M : mh_multiple h = 0 \/ mh_multiple h = 1) by (change (2 ^ 1) with 2 in HM; lia). destruct M as [-> | ->]; reflexivity.
Qed.
Lemma kind_num n : 4 <= to_msm_type n <= 7 ->
  match to_constellation n with
  | cGPS => kind_of n = KMsm GPS | cGLO => kind_of n = KMsm GLO | cGAL => kind_of n = KMsm OTHER | cBDS => kind_of n = KMsm BDS | _ => True
  end.
Proof.
  intros T. pose proof (type_num _ n T eq_refl) as R. replace n with (1071 + Z.of_nat (Z.to_nat (n - 1071))) in * by lia. generalize dependent (Z.to_nat (n - 1071)). intros k T R.
  do 57 (destruct k as [|k]; [first [reflexivity | exact I | exfalso; vm_compute in T; destruct T as [T1 T2]; first [apply T1; reflexivity | apply T2; reflexivity]]|]). lia.
Qed.
Lemma kind_range n c : kind_of n = KMsm c -> 1070 <= n <= 1229.
Proof.
  unfold kind_of. destruct ((n =? 1002) || (n =? 1004)); [discriminate|]. destruct ((n =? 1010) || (n =? 1012)); [discriminate|]. intros H.
  destruct ((1074 <=? n) && (n <=? 1077)) eqn:E1; [lia|]. destruct ((1084 <=? n) && (n <=? 1087)) eqn:E2; [lia|]. destruct ((1094 <=? n) && (n <=? 1097)) eqn:E3; [lia|].
  destruct ((1124 <=? n) && (n <=? 1127)) eqn:E4; [lia|discriminate].
Qed.
Lemma kind_other n : ~ In n (converted_msm ++ legacy_numbers) -> kind_of n = KOther.
Proof.
  intros H. unfold kind_of. assert (F : n <> 1002 /\ n <> 1004 /\ n <> 1010 /\ n <> 1012 /\ ~ 1074 <= n <= 1077 /\ ~ 1084 <= n <= 1087 /\ ~ 1094 <= n <= 1097 /\ ~ 1124 <= n <= 1127) by (cbn [In converted_msm legacy_numbers app] in H; lia).
  clear H. replace ((n =? 1002) || (n =? 1004)) with false by lia. replace ((n =? 1010) || (n =? 1012)) with false by lia. replace ((1074 <=? n) && (n <=? 1077)) with false by lia.
  replace ((1084 <=? n) && (n <=? 1087)) with false by lia. replace ((1094 <=? n) && (n <=? 1097)) with false by lia. replace ((1124 <=? n) && (n <=? 1127)) with false by lia. reflexivity.
Qed.
Lemma flat_some_len {A} (l : list (option A)) : len (flat_map some_list l) <= len l.
Proof. induction l as [|x l IH]; [cbn; lia|]. cbn [flat_map]. rewrite len_app, len_cons. destruct x; unfold len in *; cbn [some_list length] in *; lia. Qed.

Lemma filter_all {A} (f : A -> bool) (l : list A) : (forall x, In x l -> f x = true) -> filter f l = l.
Proof. induction l as [|x l IH]; intros H; [reflexivity|]. cbn [filter]. rewrite (H x (or_introl eq_refl)), IH; [reflexivity|]. intros y I. apply H. right. exact I. Qed.

Section Rx.
Variables (carrier num_of : code -> Z) (op : opts) (masked : RtcmMsm_model.cons -> bool) (utc_offset : gtime -> Z) (consts : Z -> dbl).
Context {A O : Type}.
Notation rstate := (rstate pobs (list Z * A)).
Notation out := (out pobs O).
Variable rest : Z -> list Z -> rstate -> A * list O.
Hypothesis CAR : carriers_ok carrier.
Hypothesis OP : opts_ok op.
Notation rx_step := (rx_step carrier num_of op masked utc_offset consts rest).
Notation rx_run := (rx_run carrier num_of op masked utc_offset consts rest).
Notation msm_part := (msm_part utc_offset).
Notation says_all := (says_all carrier num_of op).
Definition ld0 : Z -> list Z -> option (legacy_msg pobs) := fun _ _ => None.
Definition md0 : Z -> list Z -> option (msm_msg pobs) := fun _ _ => None.
Definition ot0 : Z -> list Z -> rstate -> (list Z * A) * list O := fun _ _ s => (r_aux s, []).
Definition week_at := ObsExcl_proofs.week_instant ld0 md0 utc_offset ot0.
Definition day_at := ObsExcl_proofs.day_instant ld0 md0 utc_offset ot0.
Definition window_at := ObsExcl_proofs.window_ok ld0 md0 utc_offset ot0.

(** *** what is decoded from an MSM part *)
Lemma part_decoded map ty h w p : fcn_map_ok map -> 4 <= ty <= 7 -> carries ty h w p -> ordinary ty h w ->
  exists os m, rx_msm carrier num_of op masked map (mh_num h) p = Some (m, Some os) /\ dm_hdr m = decoded_hdr h /\ says_all (mkrcfg masked map) ty h w (Some os) /\ len os <= set_count (cell_mask h).
Proof.
  intros FM TY C ORD. pose proof (C78_ordinary_msm_partial carrier num_of op (mkrcfg masked map) ty h w p CAR FM OP TY C ORD) as S.
  destruct C as (Hh & Hw & pad & E). destruct (raw_wire ty h w TY Hh Hw pad) as [r RW].
  assert (EM : exists m, run_dec (decode_msm_d ty) p = Ok m /\ dm_hdr m = decoded_hdr h) by (eexists; split; [unfold run_dec, decode_msm_d; rewrite E, (dbind_eq _ _ _ _ _ RW); reflexivity|reflexivity]).
  destruct EM as (m & EM & HM). unfold received_obs in S. rewrite EM in S. pose proof S as (rs & S1 & S2 & S3). exists (flat_map some_list rs), m.
  pose proof Hh as (H1 & _). unfold rx_msm. rewrite H1, EM, S1. split; [reflexivity|]. split; [exact HM|]. split; [rewrite <- S1; exact S|]. rewrite <- S2. apply flat_some_len.
Qed.

(** *** the time of a part *)
(** the time of week or day in a header, received when the receiver's time is ref, stands for the instant x *)
Definition hdr_time (num tow_ms x : Z) (ref : gtime) : Prop :=
  match to_constellation num with
  | cGPS | cGAL => instant_of_week ref tow_ms x
  | cBDS => 0 <= tow_ms < WEEK /\ instant_of_week ref ((tow_ms + 14000) mod WEEK) x
  | cGLO => instant_of_day utc_offset ref tow_ms x /\ plausible utc_offset ref x
  | _ => False
  end.
Lemma head_time num tw x ref (s1 : rstate) : 4 <= to_msm_type num <= 7 -> good_time utc_offset ref -> hdr_time num tw x ref -> r_time s1 = ref -> r_leap s1 = Some (utc_offset ref) ->
  exists c t w0, kind_of num = KMsm c /\ msm_time (obs := pobs) (other_out := O) c tw s1 = Some (Some t, w0) /\ seen w0 = [] /\ gps_time_valid t = true /\ at_ms t = x.
Proof.
  intros TY G T RT RL. pose proof (kind_num num TY) as K. unfold hdr_time in T.
  destruct (to_constellation num) eqn:EC; try contradiction T.
  - destruct (week_at ref _ x G T) as (t & Et & V & Xt). exists GPS, t. eexists. split; [exact K|]. unfold msm_time. rewrite RT, Et, V. split; [reflexivity|]. split; [apply base_seen|auto].
  - destruct T as [T P]. destruct (day_at ref _ x G T) as (t & Et & V & Xt). exists GLO, t. eexists. split; [exact K|]. unfold msm_time. rewrite RT, RL. unfold leap_of. rewrite RL.
    rewrite Et. cbn [snd]. rewrite V. cbn [negb]. rewrite (window_at t s1 ref x) by assumption. split; [reflexivity|]. auto.
  - destruct T as [H4 T]. destruct (week_at ref _ x G T) as (t & Et & V & Xt). exists BDS, t. eexists. split; [exact K|]. unfold msm_time. rewrite RT.
    assert (Eb : beidou_tow_to_gps_tow tw = (tw + 14000) mod 604800000) by (apply bds_tow; exact H4). rewrite Eb. unfold WEEK in Et. rewrite Et, V. split; [reflexivity|]. split; [apply base_seen|auto].
  - destruct (week_at ref _ x G T) as (t & Et & V & Xt). exists OTHER, t. eexists. split; [exact K|]. unfold msm_time. rewrite RT, Et, V. split; [reflexivity|]. split; [apply base_seen|auto].
Qed.
Lemma valid_parts t x : gps_time_valid t = true -> at_ms t = x -> wn t = x / WEEK /\ tow t = x mod WEEK.
Proof.
  intros V E. apply gps_valid_spec in V. unfold at_ms, WEEK, Properties_time.known_time, WEEK_MS in *.
  assert (0 <= tow t < 604800000) by tauto. split; [apply (Z.div_unique_pos x 604800000 (wn t) (tow t)); lia|apply (Z.mod_unique_pos x 604800000 (wn t) (tow t)); lia].
Qed.

(** *** filling within an epoch *)
Lemma fill_all (cs : list pobs) : forall buf, len buf + len cs <= 210 -> fill_msm buf cs = (buf ++ cs, false).
Proof.
  induction cs as [|c cs IH]; intros buf L; cbn [fill_msm]; [rewrite app_nil_r; reflexivity|]. rewrite len_cons in L. unfold MAX_OBS_PER_EPOCH. pose proof (len_nonneg cs).
  replace (210 <=? len buf) with false by (symmetry; apply Z.leb_gt; lia). rewrite IH by (rewrite len_app; unfold len in *; cbn [length]; lia). rewrite <- app_assoc. reflexivity.
Qed.
(** the epoch of x and stn is being collected *)
Definition collecting (x stn : Z) (s : rstate) : Prop := r_obs_wn s = x / WEEK /\ r_obs_tow s = x mod WEEK /\ r_sender s = sender_of stn.
Definition lasts_at (x : Z) (s : rstate) : Prop := gps_time_valid (r_last_msm s) = true /\ at_ms (r_last_msm s) = x /\ r_last_gps s = r_last_msm s /\ r_last_glo s = r_last_msm s.
Definition in_epoch (x stn : Z) (s : rstate) : Prop := collecting x stn s /\ lasts_at x s.
Lemma add_msm_in c m (s1 : rstate) t w0 x : msm_time (obs := pobs) (other_out := O) c (m_tow_ms m) s1 = Some (Some t, w0) -> seen w0 = [] -> gps_time_valid t = true -> at_ms t = x -> (x mod WEEK <> 0 \/ gps_time_valid (r_last_gps s1) = true) ->
  r_buf s1 = [] \/ in_epoch x (m_stn m) s1 -> len (r_buf s1) + len (m_cands m) <= 210 ->
  exists s2 o2, add_msm (other_out := O) c m s1 = Some (s2, o2) /\ seen o2 = [] /\ in_epoch x (m_stn m) s2 /\ r_buf s2 = r_buf s1 ++ m_cands m /\ r_aux s2 = r_aux s1.
Proof.
  intros T S V X X0 I L. destruct (valid_parts t x V X) as [W1 W2]. unfold add_msm. rewrite T.
  assert (EZ : negb (gps_time_valid (r_last_gps s1)) && (tow t =? 0) = false) by (destruct X0 as [X0|X0]; [replace (tow t =? 0) with false by (symmetry; apply Z.eqb_neq; rewrite W2; exact X0); apply andb_false_r|rewrite X0; reflexivity]).
  rewrite EZ.
  assert (E1 : (if negb (is_msm_active t s1) && (0 <? len (r_buf s1)) then set_buf s1 0 0 [] else s1) = s1).
  { destruct I as [I|(_ & I1 & I2 & _)]; [rewrite I; rewrite andb_false_r; reflexivity|].
    replace (is_msm_active t s1) with true; [reflexivity|]. symmetry. apply active_iff; [exact V|]. split; [exact I1|]. lia. }
  rewrite E1. clear E1. cbv zeta. change (r_buf (set_last s1 t t t)) with (r_buf s1). change (r_obs_tow (set_last s1 t t t)) with (r_obs_tow s1). change (r_sender (set_last s1 t t t)) with (r_sender s1).
  assert (E2 : negb (len (r_buf s1) =? 0) && (negb (r_obs_tow s1 =? tow t) || negb (r_sender s1 =? sender_of (m_stn m))) = false).
  { destruct I as [I|((_ & I1 & I2) & _)]; [rewrite I; reflexivity|]. rewrite I1, I2, W2, !Z.eqb_refl. apply andb_false_r. }
  rewrite E2. cbv beta iota. change (r_buf (set_sender (set_buf (set_last s1 t t t) (wn t) (tow t) (r_buf s1)) (sender_of (m_stn m)))) with (r_buf s1).
  change (r_buf (set_last s1 t t t)) with (r_buf s1). rewrite fill_all by exact L. eexists. eexists. split; [reflexivity|]. cbn [app]. rewrite app_nil_r.
  split; [exact S|]. split; [|split; reflexivity]. unfold in_epoch, collecting, lasts_at. cbn. rewrite W1, W2. repeat split; try reflexivity; assumption.
Qed.

Lemma epoch_seen sd w t os (o : list out) : epoch_messages sd w t os o -> seen o = o.
Proof.
  intros (parts & _ & _ & _ & _ & H). unfold seen. apply filter_all. intros m I. apply In_nth_error in I. destruct I as [i I]. apply H in I. destruct I as (p & _ & ->). reflexivity.
Qed.
Lemma flush_epoch x stn (s2 : rstate) (o2 : list out) : collecting x stn s2 -> len (r_buf s2) <= 210 -> seen o2 = [] ->
  exists s' o', send_observations s2 = Some (s', o') /\ epoch_messages (sender_of stn) (x / WEEK) (x mod WEEK) (r_buf s2) (seen (o2 ++ o')) /\ s' = set_buf s2 0 0 [].
Proof.
  intros (I1 & I2 & I3) L S. destruct (send_ok (other_out := O) s2 L) as (o' & E & M & _). exists (set_buf s2 0 0 []), o'. split; [exact E|]. rewrite seen_app, S. cbn [app].
  rewrite I1, I2, I3 in M. rewrite (epoch_seen _ _ _ _ _ M). split; [exact M|reflexivity].
Qed.
(** an observation message, from what is decoded of it *)
Lemma step_decoded x stn ref p (m : dmsg) os (s : rstate) : let h := dm_hdr m in
  good_time utc_offset ref -> bytes p -> 7 <= len p -> number_of p = mh_num h -> more_follow p = negb (mh_multiple h =? 0) ->
  rx_msm carrier num_of op masked (fcns s) (mh_num h) p = Some (m, Some os) -> 4 <= to_msm_type (mh_num h) <= 7 -> mh_stn h = stn -> hdr_time (mh_num h) (mh_tow h) x ref ->
  (x mod WEEK <> 0 \/ gps_time_valid (r_last_gps s) = true) -> r_buf s = [] \/ in_epoch x stn s -> len (r_buf s) + len os <= 210 ->
  exists s' o, rx_step (Some ref) p s = Some (s', o) /\ r_aux s' = r_aux s /\
    (mh_multiple h <> 0 -> seen o = [] /\ in_epoch x stn s' /\ r_buf s' = r_buf s ++ os) /\
    (mh_multiple h = 0 -> epoch_messages (sender_of stn) (x / WEEK) (x mod WEEK) (r_buf s ++ os) (seen o) /\ r_buf s' = [] /\ lasts_at x s').
Proof.
  intros h G B LP NU MF RM TY ST T X0 I L. destruct (number_bits p B ltac:(lia)) as [MT _]. rewrite NU in MT.
  set (s1 := set_leap (set_time s ref) (Some (utc_offset ref))).
  destruct (head_time (mh_num h) (mh_tow h) x ref s1 TY G T eq_refl eq_refl) as (c & t & w0 & K & TM & S0 & V & X).
  assert (MD : msm_dec carrier num_of op masked (fcns s) (mh_num h) p = Some (mkmsm (mh_tow h) (mh_stn h) os)) by (unfold msm_dec; rewrite RM; reflexivity).
  destruct (add_msm_in c (mkmsm (mh_tow h) (mh_stn h) os) s1 t w0 x TM S0 V X X0) as (s2 & o2 & E2 & S2 & I2 & B2 & A2).
  { cbn [m_stn]. rewrite ST. exact I. }
  { cbn [m_cands]. change (r_buf s1) with (r_buf s). lia. }
  cbn [m_stn m_cands] in I2, B2. rewrite ST in I2. change (r_buf s1) with (r_buf s) in B2. change (r_aux s1) with (r_aux s) in A2.
  assert (L2 : len (r_buf s2) <= 210) by (rewrite B2, len_app; lia).
  destruct (flush_epoch x stn s2 o2 (proj1 I2) L2 S2) as (s3 & o3 & E3 & M3 & ->).
  unfold Rx_model.rx_step, rx_undefined. rewrite MT, K, RM. rewrite andb_false_r. cbv beta iota.
  unfold decode_payload. replace (len p <? 2) with false by (symmetry; apply Z.ltb_ge; lia). cbv zeta. rewrite MT, K, MD. cbv iota. fold s1. rewrite E2.
  pose proof (kind_range _ _ K) as KR. replace (1070 <=? mh_num h) with true by (symmetry; apply Z.leb_le; lia). replace (mh_num h <=? 1229) with true by (symmetry; apply Z.leb_le; lia).
  replace (54 <=? len p * 8) with true by (symmetry; apply Z.leb_le; lia). cbn [andb]. rewrite (multiple_bit p B LP), MF.
  destruct (Z.eqb_spec (mh_multiple h) 0) as [M0|M0]; cbn [negb Z.b2z Z.eqb].
  - rewrite E3. exists (set_buf s2 0 0 []), (o2 ++ o3). split; [reflexivity|]. split; [exact A2|]. split; [intros M1; contradiction|]. intros _. rewrite B2 in M3. split; [exact M3|]. split; [reflexivity|exact (proj2 I2)].
  - exists s2, o2. split; [reflexivity|]. split; [exact A2|]. split; [|intros M1; contradiction]. intros _. split; [exact S2|]. split; assumption.
Qed.
Lemma step_part x stn more ty h w e (s : rstate) : msm_part x stn more ty h w e -> (x mod WEEK <> 0 \/ gps_time_valid (r_last_gps s) = true) -> fcn_map_ok (fcns s) -> r_buf s = [] \/ in_epoch x stn s -> len (r_buf s) + set_count (cell_mask h) <= 210 ->
  exists s' o os, rx_step (fst e) (snd e) s = Some (s', o) /\ says_all (mkrcfg masked (fcns s)) ty h w (Some os) /\ len os <= set_count (cell_mask h) /\ r_aux s' = r_aux s /\
    (more = 1 -> seen o = [] /\ in_epoch x stn s' /\ r_buf s' = r_buf s ++ os) /\
    (more = 0 -> epoch_messages (sender_of stn) (x / WEEK) (x mod WEEK) (r_buf s ++ os) (seen o) /\ r_buf s' = [] /\ lasts_at x s').
Proof.
  intros P X0 FM I L. destruct P as (ref & p & -> & G & B & TY & C & ORD & ST & MU & T). cbn [fst snd].
  destruct (carries_facts ty h w p B TY C) as (LP & NU & MF).
  destruct (part_decoded (fcns s) ty h w p FM TY C ORD) as (os & m & RM & HM & SA & LO).
  destruct C as (Hh & _). pose proof Hh as (H1 & _ & _ & H4 & _).
  destruct (step_decoded x stn ref p m os s) as (s' & o & E & AU & F1 & F0); rewrite ?HM; try assumption; try lia.
  { change (mh_num (decoded_hdr h)) with (mh_num h). rewrite H1. exact TY. }
  { change (mh_num (decoded_hdr h)) with (mh_num h). unfold hdr_time, decoded_hdr. cbn [mh_tow]. unfold DAY_MS. unfold WEEK in *. destruct (to_constellation (mh_num h)); cbn [cons_eqb]; try exact T. split; [lia|exact T]. }
  rewrite HM in F1, F0. change (mh_multiple (decoded_hdr h)) with (mh_multiple h) in F1, F0. rewrite MU in F1, F0.
  exists s', o, os. split; [exact E|]. split; [exact SA|]. split; [exact LO|]. split; [exact AU|]. split; [intros ->; apply F1; discriminate|intros ->; apply F0; reflexivity].
Qed.
(** *** other messages *)
Lemma uat_range bs o w : 0 <= w -> 0 <= uat bs o w < 2 ^ w.
Proof.
  intros W. unfold uat. pose proof (val_be_range (take w (drop o bs))) as R. assert (len (take w (drop o bs)) <= w) by (rewrite len_take; lia).
  pose proof (Z.pow_le_mono_r 2 (len (take w (drop o bs))) w ltac:(lia) ltac:(lia)). lia.
Qed.
Lemma glo_ranges bs : 0 <= U t1020 bs 38 < 64 /\ 0 <= U t1020 bs 40 < 32 /\ 0 <= U t1020 bs 110 < 128.
Proof.
  change (U t1020 bs 38) with (uat bs 12 6). change (U t1020 bs 40) with (uat bs 18 5). change (U t1020 bs 110) with (uat bs 41 7).
  pose proof (uat_range bs 12 6). pose proof (uat_range bs 18 5). pose proof (uat_range bs 41 7). lia.
Qed.
Lemma learn_ok p ref (s1 : rstate) : bytes p -> 2 <= len p -> good_time utc_offset ref -> r_time s1 = ref -> r_leap s1 = Some (utc_offset ref) ->
  (if message_type p =? 1020 then learn_fcn consts p s1 else fcns s1) = learn (fcns s1) (Some ref, p).
Proof.
  intros B L G RT RL. destruct (number_bits p B L) as [MT _]. unfold learn. cbv zeta. rewrite MT. destruct (number_of p =? 1020) eqn:EN; [|reflexivity].
  apply Z.eqb_eq in EN. unfold learn_fcn. pose proof (C77_1020_read p) as R. cbv zeta in R. rewrite R. clear R. unfold verdict.
  set (bs := bits_of_bytes p) in *. assert (LB : len bs = 8 * len p) by apply len_bits_of_bytes.
  replace (len bs <? 12) with false by (symmetry; apply Z.ltb_ge; lia).
  change (uat bs 0 12) with (number_of p). rewrite EN. cbn [Z.eqb Pos.eqb negb andb].
  set (nd := if U t1020 bs 131 =? 1 then bits_of t1020 - 7 else bits_of t1020 - 78).
  destruct (Z.ltb_spec (len bs) nd) as [LT|GE].
  { replace (nd <=? len bs) with false by (symmetry; apply Z.leb_gt; exact LT). reflexivity. }
  replace (nd <=? len bs) with true by (symmetry; apply Z.leb_le; exact GE). cbn [andb]. cbv iota.
  destruct (glo_ranges bs) as (R1 & R2 & R3). unfold glo_eph_to_sbp. cbn [g_t_b g_sat g_fcn glo_of]. rewrite RT, RL.
  set (sat := U t1020 bs 38) in *. set (f := U t1020 bs 40) in *. set (tb := U t1020 bs 110) in *.
  destruct (Z.leb_spec tb 96) as [TL|TL].
  - destruct G as (W & TW & LP). destruct (Properties_time.C21_glo_time_nearest (tb * 15 * 60 * 1000) ref (utc_offset ref)) as (t & Et & K & _); [lia|unfold Properties_time.known_time; lia|unfold Properties_time.inner_week; lia|exact LP|].
    rewrite Et. unfold Properties_time.known_time in K. replace (wn t =? -1) with false by (symmetry; apply Z.eqb_neq; lia).
    destruct (Z.eqb_spec sat 0) as [E0|N0]; [rewrite E0; reflexivity|]. cbn [sg_sat sg_fcn]. unfold set_glo_fcn.
    destruct (Z.leb_spec sat 28) as [SL|SL].
    + replace ((sat <? 1) || (1 + 28 <=? sat)) with false by lia. replace (1 <=? sat) with true by lia. cbn [andb]. cbv iota.
      rewrite (Z.mod_small (f + 1) 256) by lia. destruct (C51_fcn_map (f + 1) ltac:(lia)) as [Q1 Q2].
      destruct (Z.leb_spec f 13); [rewrite Q1 by lia; replace (f + 1 - 1) with f by lia; reflexivity|rewrite Q2 by lia; reflexivity].
    + replace ((sat <? 1) || (1 + 28 <=? sat)) with true by (symmetry; apply orb_true_iff; right; apply Z.leb_le; lia). rewrite andb_false_r. reflexivity.
  - assert (EG : compute_glo_time (tb * 15 * 60 * 1000) ref (Some (utc_offset ref)) = (false, Some T_UNKNOWN)) by (unfold compute_glo_time; replace (Time_model.DAY_MS + 1000 <=? tb * 15 * 60 * 1000) with true by (symmetry; apply Z.leb_le; unfold Time_model.DAY_MS; lia); reflexivity).
    rewrite EG. rewrite andb_false_r. reflexivity.
Qed.
Lemma learn_map_ok map e : fcn_map_ok map -> fcn_map_ok (learn map e).
Proof.
  intros [L F]. destruct e as [[ref|] p]; [|split; assumption]. unfold learn. cbv zeta. match goal with |- fcn_map_ok (if ?c then _ else _) => destruct c eqn:EC end; [|split; assumption].
  repeat (apply andb_true_iff in EC; destruct EC as [EC ?]). split; [rewrite Base.len_zupd; exact L|].
  destruct (glo_ranges (bits_of_bytes p)) as (R1 & R2 & _). set (sat := U t1020 (bits_of_bytes p) 38) in *. set (f := U t1020 (bits_of_bytes p) 40) in *. clearbody sat f.
  apply Forall_forall. intros v I. apply (In_nth _ _ 0) in I. destruct I as (n & Ln & <-).
  assert (Ln' : Z.of_nat n < 29) by (rewrite <- L; rewrite <- (Base.len_zupd sat (fun _ => if f <=? 13 then f else 255) map); unfold len; lia).
  change (nth n ?l 0) with (nth n l 0). replace (nth n (zupd sat (fun _ => if f <=? 13 then f else 255) map) 0) with (znth 0 (Z.of_nat n) (zupd sat (fun _ => if f <=? 13 then f else 255) map)) by (unfold znth; rewrite Nat2Z.id; reflexivity).
  rewrite znth_zupd by lia. destruct (Z.of_nat n =? sat); [destruct (Z.leb_spec f 13); [left; lia|right; reflexivity]|]. apply (Forall_znth (fun v => 0 <= v <= 13 \/ v = 255)); [exact F|lia].
Qed.
(** everything about observations is as before *)
Definition undisturbed (s s' : rstate) : Prop :=
  r_buf s' = r_buf s /\ r_obs_wn s' = r_obs_wn s /\ r_obs_tow s' = r_obs_tow s /\ r_sender s' = r_sender s /\ r_last_gps s' = r_last_gps s /\ r_last_glo s' = r_last_glo s /\ r_last_msm s' = r_last_msm s.
Lemma undisturbed_epoch x stn s s' : undisturbed s s' -> in_epoch x stn s -> in_epoch x stn s'.
Proof. intros (_ & U1 & U2 & U3 & U5 & U6 & U4) ((I1 & I2 & I3) & I4 & I5 & I6 & I7). unfold in_epoch, collecting, lasts_at. rewrite U1, U2, U3, U4, U5, U6. repeat split; assumption. Qed.
(** the dispatch of a message of the other kinds, before the end-of-epoch test *)
Lemma step_other tin p (s : rstate) : bytes p -> 2 <= len p -> kind_of (message_type p) = KOther -> (forall ref, tin = Some ref -> good_time utc_offset ref) ->
  exists s2 o2, undisturbed s s2 /\ seen o2 = [] /\ fcns s2 = learn (fcns s) (tin, p) /\
    (rx_step tin p s = Some (s2, o2) /\ (tin = None \/ last_flag p = false) \/
     rx_step tin p s = (if last_flag p then match send_observations s2 with None => None | Some (s, o') => Some (s, o2 ++ o') end else Some (s2, o2))).
Proof.
  intros B L K G. unfold Rx_model.rx_step, rx_undefined. rewrite K. rewrite andb_false_r.
  replace (match tin with Some _ => false | None => false end) with false by (destruct tin; reflexivity). unfold decode_payload.
  replace (len p <? 2) with false by (symmetry; apply Z.ltb_ge; lia). cbv zeta. rewrite K. destruct tin as [ref|].
  - set (s1 := set_leap (set_time s ref) (Some (utc_offset ref))). destruct (rx_other consts rest (message_type p) p s1) as [a os] eqn:EO. unfold rx_other in EO. destruct (rest (message_type p) p s1) as [a0 os0]. injection EO as <- <-.
    eexists. eexists. split; [|split; [|split; [|right; reflexivity]]].
    + repeat split; reflexivity.
    + apply seen_other.
    + unfold fcns at 1. cbn [r_aux set_aux fst]. rewrite (learn_ok p ref s1) by (try reflexivity; try assumption; apply G; reflexivity). reflexivity.
  - destruct (negb (existsb (Z.eqb (message_type p)) ungated)) eqn:EG.
    + eexists. eexists. split; [|split; [|split; [|left; split; [reflexivity|left; reflexivity]]]]; [repeat split; reflexivity|reflexivity|reflexivity].
    + set (s1 := set_time s (mkt (-1) (-1000))). destruct (rx_other consts rest (message_type p) p s1) as [a os] eqn:EO. unfold rx_other in EO. destruct (rest (message_type p) p s1) as [a0 os0]. injection EO as <- <-.
      assert (N : message_type p <> 1020) by (intros E; rewrite E in EG; discriminate EG). replace (message_type p =? 1020) with false by (symmetry; apply Z.eqb_neq; exact N).
      eexists. eexists. split; [|split; [|split; [|right; reflexivity]]]; [repeat split; reflexivity|apply seen_other|reflexivity].
Qed.
Lemma step_quiet e (s : rstate) : quiet utc_offset e ->
  exists s' o, rx_step (fst e) (snd e) s = Some (s', o) /\ undisturbed s s' /\ seen o = [] /\ fcns s' = learn (fcns s) e.
Proof.
  intros (B & G & Q). destruct e as [tin p]. cbn [fst snd] in *. destruct (Z.lt_ge_cases (len p) 2) as [L|L].
  - exists s, []. unfold Rx_model.rx_step, decode_payload. replace (2 <=? len p) with false by (symmetry; apply Z.leb_gt; exact L). cbn [andb].
    replace (match tin with Some _ => false | None => false end) with false by (destruct tin; reflexivity). replace (len p <? 2) with true by (symmetry; apply Z.ltb_lt; exact L).
    split; [reflexivity|]. split; [repeat split; reflexivity|]. split; [reflexivity|]. destruct tin as [ref|]; [|reflexivity]. unfold learn. cbv zeta.
    match goal with |- context[?a <=? len (bits_of_bytes p)] => replace (a <=? len (bits_of_bytes p)) with false end.
    + rewrite andb_false_r. reflexivity.
    + symmetry. apply Z.leb_gt. rewrite len_bits_of_bytes. change (bits_of t1020) with 360. destruct (_ =? 1); lia.
  - destruct Q as [Q|[Q1 Q2]]; [lia|]. destruct (number_bits p B L) as [MT _].
    assert (LF : last_flag p = false).
    { unfold last_flag. rewrite MT. destruct (Z.leb_spec 1070 (number_of p)); [|reflexivity]. destruct (Z.leb_spec (number_of p) 1229); [|reflexivity]. cbn [andb].
      destruct Q2 as [Q2|Q2]; [lia| |].
      - replace (54 <=? len p * 8) with false by (symmetry; apply Z.leb_gt; lia). reflexivity.
      - destruct (Z.le_gt_cases 7 (len p)) as [L7|L7]; [rewrite (multiple_bit p B L7), Q2; apply andb_false_r|]. replace (54 <=? len p * 8) with false by (symmetry; apply Z.leb_gt; lia). reflexivity. }
    destruct (step_other tin p s B L) as (s2 & o2 & U & S & F & E); [rewrite MT; apply kind_other; exact Q1|exact G|]. exists s2, o2. rewrite LF in E. split; [|auto]. destruct E as [[E _]|E]; exact E.
Qed.
Lemma step_closing x stn e (s : rstate) : closing utc_offset e -> in_epoch x stn s -> len (r_buf s) <= 210 ->
  exists s' o, rx_step (fst e) (snd e) s = Some (s', o) /\ epoch_messages (sender_of stn) (x / WEEK) (x mod WEEK) (r_buf s) (seen o) /\ r_buf s' = [] /\ fcns s' = learn (fcns s) e /\ lasts_at x s'.
Proof.
  intros (ref & p & -> & G & B & L & NI & R & MF) I LB. cbn [fst snd]. destruct (number_bits p B ltac:(lia)) as [MT _].
  assert (LF : last_flag p = true).
  { unfold last_flag. rewrite MT, (multiple_bit p B L), MF. replace (1070 <=? number_of p) with true by (symmetry; apply Z.leb_le; lia). replace (number_of p <=? 1229) with true by (symmetry; apply Z.leb_le; lia).
    replace (54 <=? len p * 8) with true by (symmetry; apply Z.leb_le; lia). reflexivity. }
  destruct (step_other (Some ref) p s B ltac:(lia)) as (s2 & o2 & U & S & F & E).
  { rewrite MT. apply kind_other. intros H. apply in_app_or in H. destruct H as [H|H]; [exact (NI H)|]. cbn [In legacy_numbers] in H. lia. }
  { intros r Er. injection Er as <-. exact G. }
  rewrite LF in E. destruct E as [[_ [E|E]]|E]; [discriminate E|discriminate E|].
  pose proof (undisturbed_epoch x stn s s2 U I) as I2. destruct U as (UB & _). destruct (flush_epoch x stn s2 o2 (proj1 I2) ltac:(rewrite UB; exact LB) S) as (s3 & o3 & E3 & M3 & ->). rewrite E3 in E. rewrite UB in M3.
  exists (set_buf s2 0 0 []), (o2 ++ o3). split; [exact E|]. split; [exact M3|]. split; [reflexivity|]. split; [exact F|exact (proj2 I2)].
Qed.
(** *** a whole epoch *)
Lemma set_count_nonneg' l : 0 <= set_count l.
Proof. unfold set_count. apply len_nonneg. Qed.
Lemma run_epoch x stn b es n : msm_epoch utc_offset x stn b es n -> forall s : rstate, (x mod WEEK <> 0 \/ gps_time_valid (r_last_gps s) = true) -> fcn_map_ok (fcns s) -> (b = false /\ r_buf s = [] \/ in_epoch x stn s) -> len (r_buf s) + n <= 210 ->
  exists s' o os, rx_run es s = Some (s', o) /\ epoch_obs carrier num_of op masked utc_offset x stn (fcns s) es os /\ epoch_messages (sender_of stn) (x / WEEK) (x mod WEEK) (r_buf s ++ os) (seen o) /\
    r_buf s' = [] /\ fcns s' = fold_left learn es (fcns s) /\ fcn_map_ok (fcns s') /\ lasts_at x s'.
Proof.
  assert (LM : forall x stn more ty h w e map, msm_part x stn more ty h w e -> learn map e = map).
  { clear. intros x stn more ty h w e map (ref & p & -> & _ & B & TY & C & _). destruct (carries_facts ty h w p B TY C) as (_ & NU & _). destruct C as ((H1 & _) & _). pose proof (type_num ty _ TY H1).
    unfold learn. cbv zeta. rewrite NU. replace (mh_num h =? 1020) with false by (symmetry; apply Z.eqb_neq; lia). reflexivity. }
  induction 1 as [b e ty h w P|e C|b e ty h w es n P H IH|b e es n Q H IH]; intros s X0 FM I L.
  - destruct (step_part x stn 0 ty h w e s P X0 FM) as (s' & o & os & E & SA & LO & AU & _ & F0); [destruct I as [[_ I]|I]; [left|right]; exact I|lia|]. destruct (F0 eq_refl) as (M & BU & LA).
    exists s', o, os. cbn [Rx_model.rx_run]. destruct e as [tin p]. cbn [fst snd] in E. rewrite E. rewrite app_nil_r. split; [reflexivity|].
    split; [rewrite <- (app_nil_r os); eapply eo_part; [exact P|exact SA|constructor]|]. split; [exact M|]. split; [exact BU|]. cbn [fold_left]. unfold fcns at 1 3. rewrite AU. fold (fcns s). rewrite (LM _ _ _ _ _ _ _ _ P). auto.
  - destruct I as [[? _]|I]; [discriminate|]. destruct (step_closing x stn e s C I ltac:(lia)) as (s' & o & E & M & BU & F & LA). exists s', o, []. cbn [Rx_model.rx_run]. destruct e as [tin p]. cbn [fst snd] in E. rewrite E. rewrite !app_nil_r.
    split; [reflexivity|]. split; [apply eo_other; [right; exact C|constructor]|]. split; [exact M|]. split; [exact BU|]. cbn [fold_left]. rewrite F. split; [reflexivity|]. split; [apply learn_map_ok; exact FM|exact LA].
  - assert (0 <= n) by (clear - H; induction H; try lia; pose proof (set_count_nonneg' (cell_mask h)); lia).
    destruct (step_part x stn 1 ty h w e s P X0 FM) as (s' & o & os & E & SA & LO & AU & F1 & _); [destruct I as [[_ I]|I]; [left|right]; exact I|lia|]. destruct (F1 eq_refl) as (SO & I' & BU).
    assert (FE : fcns s' = fcns s) by (unfold fcns; rewrite AU; reflexivity).
    destruct (IH s') as (s2 & o2 & os2 & E2 & EO & M & B2 & F2 & FM2 & LA); [right; destruct I' as (_ & V1 & _ & V2 & _); rewrite V2; exact V1|rewrite FE; exact FM|right; exact I'|rewrite BU, len_app; lia|].
    exists s2, (o ++ o2), (os ++ os2). cbn [Rx_model.rx_run]. destruct e as [tin p]. cbn [fst snd] in E. rewrite E, E2. split; [reflexivity|]. rewrite FE in EO, F2. split; [eapply eo_part; eassumption|].
    rewrite seen_app, SO. cbn [app]. rewrite BU, <- app_assoc in M. split; [exact M|]. split; [exact B2|]. cbn [fold_left]. rewrite (LM _ _ _ _ _ _ _ _ P). split; [exact F2|]. split; [exact FM2|exact LA].
  - destruct (step_quiet e s Q) as (s' & o & E & U & SO & F). pose proof U as (UB & _).
    destruct (IH s') as (s2 & o2 & os2 & E2 & EO & M & B2 & F2 & FM2 & LA); [destruct U as (_ & _ & _ & _ & UG & _); rewrite UG; exact X0|rewrite F; apply learn_map_ok; exact FM|destruct I as [[-> I]|I]; [left; split; [reflexivity|congruence]|right; eapply undisturbed_epoch; eassumption]|rewrite UB; exact L|].
    exists s2, (o ++ o2), os2. cbn [Rx_model.rx_run]. destruct e as [tin p]. cbn [fst snd] in E. rewrite E, E2. split; [reflexivity|]. rewrite F in EO, F2. split; [apply eo_other; [left; exact Q|exact EO]|].
    rewrite seen_app, SO. cbn [app]. rewrite UB in M. split; [exact M|]. split; [exact B2|]. split; [exact F2|]. split; [exact FM2|exact LA].
Qed.
(** *** legacy epochs *)
Lemma leg_facts (sy : sys) (dual : bool) h l p : carries_leg sy dual h l p -> 7 <= len p /\ number_of p = number sy dual.
Proof.
  intros (_ & _ & _ & pad & E). assert (E1 : exists r, bits_of_bytes p = bits_be 12 (number sy dual) ++ r /\ 44 <= len r).
  { unfold header_layout in E. cbn [app] in E. change (fields_bits (?a :: ?b :: ?c :: ?d :: ?m)) with (fbits a ++ fbits b ++ fbits c ++ fbits d ++ fields_bits m) in E.
    unfold fbits at 1 2 3 4 in E. cbn [fst snd] in E. rewrite <- !app_assoc in E. eexists. split; [exact E|]. rewrite !len_app, !len_bits_be.
    match goal with |- context[fields_bits ?m] => pose proof (len_nonneg (fields_bits m)) end. pose proof (len_nonneg pad).
    match goal with |- context[fields_bits (?a :: ?b :: ?c :: ?m)] => change (fields_bits (a :: b :: c :: m)) with (fbits a ++ fbits b ++ fbits c ++ fields_bits m) in *; pose proof (len_nonneg (fields_bits m)) end.
    rewrite !len_app in *. unfold fbits in *. cbn [fst snd] in *. rewrite !len_bits_be in *. destruct (glo sy); lia. }
  destruct E1 as (r & E1 & LR). split.
  - assert (8 * len p = 12 + len r) by (rewrite <- len_bits_of_bytes, E1, len_app, len_bits_be; reflexivity). lia.
  - unfold number_of. rewrite E1, take_app_eq by apply len_bits_be. rewrite val_bits_be. destruct sy, dual; reflexivity.
Qed.
Definition bias_c : code -> dbl := fun k => dofflt (op_signal op k).
Lemma cand_some (sy : sys) second sv c q r : freq_to_sbp_b num_of bias_c sy second sv c q = Some r -> exists cs, cand num_of op sy second sv c q = Some cs /\ somes cs = r /\ len cs <= 1.
Proof.
  intros E. unfold cand. fold bias_c. rewrite E. eexists. split; [reflexivity|]. unfold freq_to_sbp_b in E. destruct (qv_pr q && qv_cp q); [|injection E as <-; split; [reflexivity|cbn; lia]].
  destruct (sbp_sid sy second sv c) as [[sat k]|]; [|injection E as <-; split; [reflexivity|cbn; lia]].
  destruct (conv 0 (2 ^ 32 - 1) _); [|discriminate]. destruct (split256 _ _ _) as [[li lf]|]; [|discriminate]. destruct (if qv_cnr q then _ else _); [|discriminate]. destruct (2 ^ 31 - 1 <? li); [discriminate|]. injection E as <-. split; [reflexivity|cbn; lia].
Qed.
Lemma cands_some (sy : sys) xs l : all_some (map (sat_to_sbp_b num_of bias_c sy) xs) = Some l ->
  exists cs, all_some (map (sat_cands num_of op sy) xs) = Some cs /\ somes (concat cs) = concat l /\ len (concat cs) <= 2 * len xs.
Proof.
  revert l. induction xs as [|x xs IH]; intros l E; cbn [map all_some] in *; [injection E as <-; exists []; repeat split; cbn; lia|].
  unfold sat_to_sbp_b at 1 in E. destruct (freq_to_sbp_b num_of bias_c sy false _ _ _) as [a|] eqn:E1; [|discriminate]. destruct (freq_to_sbp_b num_of bias_c sy true _ _ _) as [b|] eqn:E2; [|discriminate].
  destruct (all_some (map _ xs)) as [l'|] eqn:E3; [|discriminate]. injection E as <-. destruct (IH _ eq_refl) as (cs & C1 & C2 & C3).
  destruct (cand_some _ _ _ _ _ _ E1) as (c1 & D1 & D2 & D3). destruct (cand_some _ _ _ _ _ _ E2) as (c2 & F1 & F2 & F3).
  exists ((c1 ++ c2) :: cs). unfold sat_cands at 1. rewrite D1, F1, C1. split; [reflexivity|]. cbn [concat]. unfold somes in *. rewrite !flat_map_app, D2, F2, C2, !len_app, len_cons. split; [reflexivity|lia].
Qed.
Lemma leg_decoded (sy : sys) (dual : bool) h l p : carries_leg sy dual h l p -> Forall (regular sy dual) l -> Forall (fun y => 4 <= f_amb y) l ->
  exists m cs os, rx_leg num_of op (number sy dual) p = Some (m, Some cs) /\ LegVal_model.rx_hdr m = h /\ leg_all num_of op sy dual h l (Some (h, os)) /\ somes cs = os /\ len cs <= 62.
Proof.
  intros C RG AM. pose proof (C80_ordinary_legacy_partial num_of op sy dual h l p OP C RG AM) as S. pose proof (message_sats sy dual h l p C) as D.
  assert (DA : decode_any (number sy dual) = Some (sy, if dual then decode_leg sy else decode_leg1 sy)) by (destruct sy, dual; reflexivity).
  pose proof S as S'. destruct S as (rs & E & F). unfold leg_obs in E, S'. rewrite DA, D in E, S'. fold bias_c in E, S'. unfold leg_to_sbp_b in E, S'. cbn [LegVal_model.rx_sats LegVal_model.rx_hdr] in *.
  match type of D with _ = Ok (mkrxmsg _ ?xs) => set (vs := xs) in * end.
  destruct (all_some (map (sat_to_sbp_b num_of bias_c sy) vs)) as [ls|] eqn:EL; [|discriminate E]. destruct (cands_some _ _ _ EL) as (cs & C1 & C2 & C3).
  exists (mkrxmsg h vs), (concat cs), (concat ls). unfold rx_leg. rewrite DA, D. cbn [LegVal_model.rx_sats]. rewrite C1. split; [reflexivity|]. split; [reflexivity|]. split; [exact S'|]. split; [exact C2|].
  destruct C as (_ & _ & LN & _). assert (len vs = len l) by (unfold vs, len; rewrite map_length; reflexivity). lia.
Qed.
Lemma fill_all_legacy (cs : list (option pobs)) : forall buf, len buf + len cs <= 210 -> fill_legacy buf cs = (buf ++ somes cs, false).
Proof.
  induction cs as [|c cs IH]; intros buf L; cbn [fill_legacy somes flat_map]; [rewrite app_nil_r; reflexivity|]. rewrite len_cons in L. unfold MAX_OBS_PER_EPOCH. pose proof (len_nonneg cs).
  replace (210 <=? len buf) with false by (symmetry; apply Z.leb_gt; lia). rewrite IH by (destruct c; rewrite ?len_app; unfold len in *; cbn [length]; lia). destruct c; [rewrite <- app_assoc|]; reflexivity.
Qed.
(** a legacy epoch of x and stn is being collected; [d]: the systems already in it *)
Definition in_leg (x stn : Z) (d : sys -> bool) (s : rstate) : Prop :=
  (r_buf s = [] \/ collecting x stn s) /\ ~ msm_blocks x s /\
  (gps_time_valid (r_last_gps s) = true -> at_ms (r_last_gps s) < x + Z.b2z (d RtcmLegacy_model.GPS)) /\ (gps_time_valid (r_last_glo s) = true -> at_ms (r_last_glo s) < x + Z.b2z (d RtcmLegacy_model.GLO)) /\
  len (r_buf s) <= 62 * (Z.b2z (d RtcmLegacy_model.GPS) + Z.b2z (d RtcmLegacy_model.GLO)).
(** what is left of it afterwards *)
Definition leg_after (x : Z) (s s' : rstate) : Prop :=
  r_buf s' = [] /\ (r_last_msm s' = r_last_msm s /\ (gps_time_valid (r_last_gps s) = true -> gps_time_valid (r_last_gps s') = true)) /\ (gps_time_valid (r_last_gps s') = true -> at_ms (r_last_gps s') <= x) /\ (gps_time_valid (r_last_glo s') = true -> at_ms (r_last_glo s') <= x).
Lemma add_obs_in x stn m t (s1 : rstate) : gps_time_valid t = true -> at_ms t = x -> l_stn m = stn -> (r_buf s1 = [] \/ collecting x stn s1) -> len (r_buf s1) + len (l_cands m) <= 210 ->
  exists s2 o2, add_obs_to_buffer (other_out := O) m t s1 = Some (s2, o2) /\
    (l_sync m <> 0 -> o2 = [] /\ s2 = set_buf (set_sender (set_buf s1 (wn t) (tow t) (r_buf s1)) (sender_of stn)) (wn t) (tow t) (r_buf s1 ++ somes (l_cands m)) /\ collecting x stn s2) /\
    (l_sync m = 0 -> epoch_messages (sender_of stn) (x / WEEK) (x mod WEEK) (r_buf s1 ++ somes (l_cands m)) (seen o2) /\ s2 = set_buf (set_sender s1 (sender_of stn)) 0 0 []).
Proof.
  intros V X ST I L. destruct (valid_parts t x V X) as [W1 W2]. unfold add_obs_to_buffer. rewrite ST.
  assert (E2 : negb (len (r_buf s1) =? 0) && (negb (r_obs_tow s1 =? tow t) || negb (r_sender s1 =? sender_of stn)) = false).
  { destruct I as [I|(_ & I1 & I2)]; [rewrite I; reflexivity|]. rewrite I1, I2, W2, !Z.eqb_refl. apply andb_false_r. }
  cbv zeta. rewrite E2. cbv iota beta. change (r_buf (set_sender (set_buf s1 (wn t) (tow t) (r_buf s1)) (sender_of stn))) with (r_buf s1). rewrite fill_all_legacy by exact L.
  set (s2 := set_buf _ _ _ (r_buf s1 ++ _)). assert (CO : collecting x stn s2) by (unfold collecting, s2; cbn; rewrite W1, W2; auto).
  destruct (Z.eqb_spec (l_sync m) 0) as [S0|S0].
  - assert (LB : len (r_buf s2) <= 210) by (unfold s2; cbn [r_buf set_buf]; rewrite len_app; pose proof (flat_some_len (l_cands m)) as Q; change (flat_map some_list (l_cands m)) with (somes (l_cands m)) in Q; lia).
    destruct (flush_epoch x stn s2 [] CO LB eq_refl) as (s3 & o3 & E3 & M3 & ->). rewrite E3. eexists. eexists. split; [reflexivity|]. split; [intros; contradiction|]. intros _. split; [exact M3|reflexivity].
  - eexists. eexists. split; [reflexivity|]. split; [|intros; contradiction]. intros _. split; [reflexivity|]. split; [reflexivity|exact CO].
Qed.
Lemma step_leg x stn sync (sy : sys) (dual : bool) h l e (d : sys -> bool) (s : rstate) : leg_part utc_offset x stn sync sy dual h l e -> d sy = false -> in_leg x stn d s ->
  exists s' o os, rx_step (fst e) (snd e) s = Some (s', o) /\ leg_all num_of op sy dual h l (Some (h, os)) /\ r_aux s' = r_aux s /\
    (sync = 1 -> seen o = [] /\ in_leg x stn (mark sy d) s' /\ r_buf s' = r_buf s ++ os /\ r_last_msm s' = r_last_msm s /\ (gps_time_valid (r_last_gps s) = true -> gps_time_valid (r_last_gps s') = true)) /\
    (sync = 0 -> epoch_messages (sender_of stn) (x / WEEK) (x mod WEEK) (r_buf s ++ os) (seen o) /\ leg_after x s s').
Proof.
  intros (ref & p & -> & G & B & C & RG & AM & ST & SY & T) DS (I1 & I2 & I3 & I4 & I5). cbn [fst snd]. destruct (leg_facts sy dual h l p C) as (LP & NU). destruct (number_bits p B ltac:(lia)) as [MT _]. rewrite NU in MT.
  destruct (leg_decoded sy dual h l p C RG AM) as (m & cs & os & RM & HM & SA & SO & LC).
  set (s1 := set_leap (set_time s ref) (Some (utc_offset ref))).
  assert (MD : legacy_dec num_of op (number sy dual) p = Some (mklegacy (h_tow h) (h_stn h) (h_sync h) cs)) by (unfold legacy_dec; rewrite RM, HM; reflexivity).
  set (lm := mklegacy (h_tow h) (h_stn h) (h_sync h) cs) in *.
  assert (DB : Z.b2z (d RtcmLegacy_model.GPS) + Z.b2z (d RtcmLegacy_model.GLO) <= 1) by (destruct sy; rewrite DS; [destruct (d RtcmLegacy_model.GLO)|destruct (d RtcmLegacy_model.GPS)]; cbn; lia).
  assert (DM : Z.b2z (mark sy d RtcmLegacy_model.GPS) + Z.b2z (mark sy d RtcmLegacy_model.GLO) = 1 + (Z.b2z (d RtcmLegacy_model.GPS) + Z.b2z (d RtcmLegacy_model.GLO))) by (destruct sy; cbn [mark]; rewrite DS; cbn [Z.b2z]; lia).
  assert (SL : len os <= 62) by (rewrite <- SO; pose proof (flat_some_len cs) as Q; change (flat_map some_list cs) with (somes cs) in Q; lia).
  assert (TAIL : (1070 <=? number sy dual) = false) by (destruct sy, dual; reflexivity).
  unfold Rx_model.rx_step. unfold rx_undefined. rewrite MT.
  assert (K : kind_of (number sy dual) = match sy with RtcmLegacy_model.GPS => KGps | RtcmLegacy_model.GLO => KGlo end) by (destruct sy, dual; reflexivity).
  assert (U : match kind_of (number sy dual) with KGps | KGlo => match rx_leg num_of op (number sy dual) p with Some (_, None) => true | _ => false end | KMsm _ => match rx_msm carrier num_of op masked (fcns s) (number sy dual) p with Some (_, None) => true | _ => false end | KOther => false end = false)
    by (rewrite K, RM; destruct sy; reflexivity).
  rewrite U. clear U. rewrite andb_false_r. cbv iota. unfold decode_payload. replace (len p <? 2) with false by (symmetry; apply Z.ltb_ge; lia). cbv zeta. rewrite MT, K, MD, TAIL. cbn [andb]. cbv iota. fold s1.
  destruct sy.
  - destruct (week_at ref _ x G T) as (t & Et & V & Xt). unfold add_gps. cbn [l_tow_ms lm]. change (r_time s1) with ref. rewrite Et, V. cbn [negb].
    replace (is_msm_active t s1) with false by (symmetry; apply not_true_iff_false; intros A1; apply active_iff in A1; [|exact V]; rewrite Xt in A1; exact (I2 A1)).
    assert (FR : negb (gps_time_valid (r_last_gps s1)) || (1 <=? gpsdifftime t (r_last_gps s1)) = true).
    { change (r_last_gps s1) with (r_last_gps s). destruct (gps_time_valid (r_last_gps s)) eqn:VG; [|reflexivity]. cbn [negb orb]. apply Z.leb_le. rewrite diff_ms by assumption. specialize (I3 eq_refl). rewrite DS in I3. cbn [Z.b2z] in I3. lia. }
    rewrite FR. clear FR. set (s2 := set_last s1 t (r_last_glo s1) (r_last_msm s1)).
    destruct (add_obs_in x stn lm t s2 V Xt ST I1) as (s3 & o3 & E3 & F1 & F0); [cbn [l_cands lm]; change (r_buf s2) with (r_buf s); lia|]. rewrite E3. change (r_buf s2) with (r_buf s) in F1, F0. cbn [l_cands l_sync lm] in F1, F0. rewrite SO in F1, F0.
    exists s3. eexists. exists os. split; [reflexivity|]. split; [exact SA|]. rewrite seen_app, base_seen. cbn [app]. rewrite SY in F1, F0.
    assert (AU : r_aux s3 = r_aux s) by (destruct (Z.eq_dec sync 0) as [Z0|Z0]; [destruct (F0 Z0) as (_ & ->)|destruct (F1 Z0) as (_ & -> & _)]; reflexivity). split; [exact AU|]. split.
    + intros S1. destruct (F1 ltac:(lia)) as (-> & E4 & CO). split; [reflexivity|]. split; [|rewrite E4; split; [reflexivity|]; split; [reflexivity|]; first [intros _; exact V|exact (fun z => z)]]. split; [right; exact CO|]. rewrite E4. cbn [r_last_gps r_last_glo r_last_msm set_buf set_sender set_last s2 s1 r_buf mark]. 
      split; [exact I2|]. split; [intros _; cbn; lia|]. split; [exact I4|]. rewrite len_app. cbn [Z.b2z mark] in DM |- *. lia.
    + intros S0. destruct (F0 S0) as (M & E4). split; [exact M|]. rewrite E4. unfold leg_after. cbn [r_last_gps r_last_glo r_last_msm set_buf set_sender set_last s2 s1 r_buf]. split; [reflexivity|]. split; [split; [reflexivity|intros _; exact V]|]. split; [intros _; cbn; lia|].
      intros VL. specialize (I4 VL). change (at_ms (r_last_glo s) <= x). destruct (d RtcmLegacy_model.GLO); cbn [Z.b2z] in I4; lia.
  - destruct T as [T P]. destruct (day_at ref _ x G T) as (t & Et & V & Xt). change (r_leap s1) with (Some (utc_offset ref)). cbv iota. unfold add_glo. cbn [l_tow_ms lm]. change (r_time s1) with ref. change (r_leap s1) with (Some (utc_offset ref)). rewrite Et, V. cbn [negb].
    change (leap_of s1) with (utc_offset ref). rewrite (window_at t s1 ref x) by (reflexivity || assumption). cbn [negb].
    replace (is_msm_active t s1) with false by (symmetry; apply not_true_iff_false; intros A1; apply active_iff in A1; [|exact V]; rewrite Xt in A1; exact (I2 A1)).
    assert (FR : negb (gps_time_valid (r_last_glo s1)) || (1 <=? gpsdifftime t (r_last_glo s1)) = true).
    { change (r_last_glo s1) with (r_last_glo s). destruct (gps_time_valid (r_last_glo s)) eqn:VG; [|reflexivity]. cbn [negb orb]. apply Z.leb_le. rewrite diff_ms by assumption. specialize (I4 eq_refl). rewrite DS in I4. cbn [Z.b2z] in I4. lia. }
    rewrite FR. clear FR. set (s2 := set_last s1 (r_last_gps s1) t (r_last_msm s1)).
    destruct (add_obs_in x stn lm t s2 V Xt ST I1) as (s3 & o3 & E3 & F1 & F0); [cbn [l_cands lm]; change (r_buf s2) with (r_buf s); lia|]. rewrite E3. change (r_buf s2) with (r_buf s) in F1, F0. cbn [l_cands l_sync lm] in F1, F0. rewrite SO in F1, F0.
    exists s3, o3, os. split; [reflexivity|]. split; [exact SA|]. rewrite SY in F1, F0.
    assert (AU : r_aux s3 = r_aux s) by (destruct (Z.eq_dec sync 0) as [Z0|Z0]; [destruct (F0 Z0) as (_ & ->)|destruct (F1 Z0) as (_ & -> & _)]; reflexivity). split; [exact AU|]. split.
    + intros S1. destruct (F1 ltac:(lia)) as (-> & E4 & CO). split; [reflexivity|]. split; [|rewrite E4; split; [reflexivity|]; split; [reflexivity|]; first [intros _; exact V|exact (fun z => z)]]. split; [right; exact CO|]. rewrite E4. cbn [r_last_gps r_last_glo r_last_msm set_buf set_sender set_last s2 s1 r_buf mark].
      split; [exact I2|]. split; [exact I3|]. split; [intros _; cbn; lia|]. rewrite len_app. cbn [Z.b2z mark] in DM |- *. lia.
    + intros S0. destruct (F0 S0) as (M & E4). split; [exact M|]. rewrite E4. unfold leg_after. cbn [r_last_gps r_last_glo r_last_msm set_buf set_sender set_last s2 s1 r_buf]. split; [reflexivity|]. split; [split; [reflexivity|exact (fun z => z)]|]. split; [|intros _; cbn; lia].
      intros VL. specialize (I3 VL). change (at_ms (r_last_gps s) <= x). destruct (d RtcmLegacy_model.GPS); cbn [Z.b2z] in I3; lia.
Qed.
Lemma run_leg x stn d es : leg_epoch utc_offset x stn d es -> forall s : rstate, fcn_map_ok (fcns s) -> in_leg x stn d s ->
  exists s' o os, rx_run es s = Some (s', o) /\ leg_epoch_obs num_of op utc_offset x stn es os /\ epoch_messages (sender_of stn) (x / WEEK) (x mod WEEK) (r_buf s ++ os) (seen o) /\
    fcns s' = fold_left learn es (fcns s) /\ fcn_map_ok (fcns s') /\ leg_after x s s'.
Proof.
  assert (LM : forall x stn sync sy dual h l e map, leg_part utc_offset x stn sync sy dual h l e -> learn map e = map).
  { intros x0 stn0 sync sy dual h l e map (ref & p & -> & _ & B & C & _). destruct (leg_facts sy dual h l p C) as (_ & NU).
    unfold learn. cbv zeta. rewrite NU. replace (number sy dual =? 1020) with false by (destruct sy, dual; reflexivity). reflexivity. }
  induction 1 as [d sy dual h l e D P|d sy dual h l e es D P H IH|d e es Q H IH]; intros s FM I.
  - destruct (step_leg x stn 0 sy dual h l e d s P D I) as (s' & o & os & E & SA & AU & _ & F0). destruct (F0 eq_refl) as [M LA].
    exists s', o, os. cbn [Rx_model.rx_run]. destruct e as [tin p]. cbn [fst snd] in E. rewrite E. rewrite app_nil_r. split; [reflexivity|].
    split; [rewrite <- (app_nil_r os); eapply leo_part; [exact P|exact SA|constructor]|]. split; [exact M|]. cbn [fold_left]. unfold fcns at 1 3. rewrite AU. fold (fcns s). rewrite (LM _ _ _ _ _ _ _ _ _ P). auto.
  - destruct (step_leg x stn 1 sy dual h l e d s P D I) as (s' & o & os & E & SA & AU & F1 & _). destruct (F1 eq_refl) as (SO & I' & BU & LS & LV).
    assert (FE : fcns s' = fcns s) by (unfold fcns; rewrite AU; reflexivity).
    destruct (IH s') as (s2 & o2 & os2 & E2 & EO & M & F2 & FM2 & LA); [rewrite FE; exact FM|exact I'|].
    exists s2, (o ++ o2), (os ++ os2). cbn [Rx_model.rx_run]. destruct e as [tin p]. cbn [fst snd] in E. rewrite E, E2. split; [reflexivity|]. split; [eapply leo_part; eassumption|].
    rewrite seen_app, SO. cbn [app]. rewrite BU, <- app_assoc in M. split; [exact M|]. rewrite FE in F2. cbn [fold_left]. rewrite (LM _ _ _ _ _ _ _ _ _ P). split; [exact F2|]. split; [exact FM2|].
    destruct LA as (LA1 & (LA2 & LA4) & LA3). split; [exact LA1|]. split; [split; [congruence|]|exact LA3]. first [rewrite U4 in LA4; exact LA4|auto].
  - destruct (step_quiet e s Q) as (s' & o & E & U & SO & F). pose proof U as (UB & U1 & U2 & U3 & U4 & U5 & U6).
    destruct (IH s') as (s2 & o2 & os2 & E2 & EO & M & F2 & FM2 & LA); [rewrite F; apply learn_map_ok; exact FM| |].
    { destruct I as (I1 & I2 & I3). unfold in_leg, collecting, msm_blocks in *. rewrite UB, U1, U2, U3, U4, U5, U6. auto. }
    exists s2, (o ++ o2), os2. cbn [Rx_model.rx_run]. destruct e as [tin p]. cbn [fst snd] in E. rewrite E, E2. split; [reflexivity|]. split; [apply leo_quiet; assumption|].
    rewrite seen_app, SO. cbn [app]. rewrite UB in M. rewrite F in F2. split; [exact M|]. split; [exact F2|]. split; [exact FM2|].
    destruct LA as (LA1 & (LA2 & LA4) & LA3). split; [exact LA1|]. split; [split; [congruence|]|exact LA3]. first [rewrite U4 in LA4; exact LA4|auto].
Qed.
(** *** one epoch after another *)
Definition lasts_ok (last last_msm : option Z) (s : rstate) : Prop :=
  (gps_time_valid (r_last_gps s) = true -> exists y, last = Some y /\ at_ms (r_last_gps s) <= y) /\ (gps_time_valid (r_last_glo s) = true -> exists y, last = Some y /\ at_ms (r_last_glo s) <= y) /\
  (gps_time_valid (r_last_msm s) = true -> exists y, last_msm = Some y /\ at_ms (r_last_msm s) <= y) /\ (last_msm <> None -> gps_time_valid (r_last_gps s) = true).
Lemma run_app l1 : forall l2 (s : rstate) s1 o1 s2 o2, rx_run l1 s = Some (s1, o1) -> rx_run l2 s1 = Some (s2, o2) -> rx_run (l1 ++ l2) s = Some (s2, o1 ++ o2).
Proof.
  induction l1 as [|[tin p] l1 IH]; intros l2 s s1 o1 s2 o2 H1 H2; cbn [Rx_model.rx_run app] in *; [injection H1 as <- <-; exact H2|].
  destruct (rx_step tin p s) as [[s' o']|]; [|discriminate]. destruct (rx_run l1 s') as [[s'' o'']|] eqn:E; [|discriminate]. injection H1 as <- <-. rewrite (IH l2 _ _ _ _ _ E H2), app_assoc. reflexivity.
Qed.
Lemma run_epochs (eps : list epoch) : Forall (complete_epoch utc_offset) eps -> forall last last_msm (s : rstate), spaced last last_msm eps -> lasts_ok last last_msm s -> fcn_map_ok (fcns s) -> r_buf s = [] ->
  exists s' o gs, rx_run (flat_map snd eps) s = Some (s', o) /\ seen o = concat gs /\ epochs_seen carrier num_of op masked utc_offset (O := O) (fcns s) eps gs.
Proof.
  induction 1 as [|[[[leg x] stn] es] eps CE H IH]; intros last last_msm s SP LO FM BU; [exists s, [], []; repeat split; reflexivity|].
  cbn [fst snd flat_map] in *.
  assert (D : exists s1 o1 os ls lm, rx_run es s = Some (s1, o1) /\ (if leg then leg_epoch_obs num_of op utc_offset x stn es os else epoch_obs carrier num_of op masked utc_offset x stn (fcns s) es os) /\
     epoch_messages (sender_of stn) (x / WEEK) (x mod WEEK) os (seen o1) /\ fcns s1 = fold_left learn es (fcns s) /\ fcn_map_ok (fcns s1) /\ r_buf s1 = [] /\ lasts_ok ls lm s1 /\ spaced ls lm eps).
  { destruct leg; cbn [spaced complete_epoch] in SP, CE.
    - destruct SP as (SP1 & SP2 & SP3). destruct LO as (LO1 & LO2 & LO3 & LO4). destruct (run_leg x stn _ es CE s FM) as (s1 & o1 & os & E1 & EO & M & F1 & FM1 & LA1 & (LA2 & LA5) & LA3 & LA4).
      { unfold in_leg. rewrite BU. split; [left; reflexivity|]. split; [intros [V1 V2]; destruct (LO3 V1) as (y & Ey & Ly); specialize (SP2 y Ey); lia|]. cbn [Z.b2z].
        split; [intros V1; destruct (LO1 V1) as (y & Ey & Ly); specialize (SP1 y Ey); lia|]. split; [intros V1; destruct (LO2 V1) as (y & Ey & Ly); specialize (SP1 y Ey); lia|cbn; lia]. }
      rewrite BU in M. exists s1, o1, os, (Some x), last_msm. split; [exact E1|]. split; [exact EO|]. split; [exact M|]. split; [exact F1|]. split; [exact FM1|]. split; [exact LA1|]. split; [|exact SP3].
      unfold lasts_ok. rewrite LA2. split; [intros V1; exists x; auto|]. split; [intros V1; exists x; auto|]. split; [exact LO3|]. intros N. apply LA5. exact (LO4 N).
    - destruct CE as (n & LN & ME). destruct SP as [SP0 SP]. destruct (run_epoch x stn false es n ME s) with (2 := FM) as (s1 & o1 & os & E1 & EO & M & B1 & F1 & FM1 & LA1 & LA2 & LA3 & LA4); [destruct last_msm; [right; apply LO; discriminate|left; apply SP0; reflexivity]|left; auto|rewrite BU; cbn; lia|].
      rewrite BU in M. exists s1, o1, os, (Some x), (Some x). split; [exact E1|]. split; [exact EO|]. split; [exact M|]. split; [exact F1|]. split; [exact FM1|]. split; [exact B1|]. split; [|exact SP].
      unfold lasts_ok. rewrite LA3, LA4, LA2. split; [|split; [|split]]; intros _; [| | |exact LA1]; exists x; split; reflexivity || lia. }
  destruct D as (s1 & o1 & os & ls & lm & E1 & EO & M & F1 & FM1 & B1 & LO1 & SP1).
  destruct (IH ls lm s1 SP1 LO1 FM1 B1) as (s2 & o2 & gs & E2 & S2 & ES). exists s2, (o1 ++ o2), (seen o1 :: gs).
  split; [eapply run_app; eassumption|]. split; [rewrite seen_app, S2; reflexivity|]. cbn [epochs_seen]. rewrite F1 in ES. split; [|exact ES]. exists os. split; assumption.
Qed.
End Rx.
