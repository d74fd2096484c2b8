(** C61: what nov2sbp sends for NovAtel inertial measurements (RAWIMUSX). *)
From Coq Require Import Reals Lra.
From Flocq Require Import Core IEEE754.Binary IEEE754.Bits.
From Verif Require Import Base Double_model Signals_model Novatel_model SbpEph_model SbpEph_spec Near_proofs NovSbp_model NovSbp_spec NovVal_proofs NovImu_proofs.
Open Scope Z_scope.

Section P.
Variables (elt : dbl -> Z) (sid_valid : Z -> code -> bool) (geoid : dbl -> dbl -> dbl) (cosf sinf : dbl -> dbl).
Notation step := (nov_step elt sid_valid geoid cosf sinf).
Notation run := (nov_run elt sid_valid geoid cosf sinf).
(** the six increments: 32 bits *)
Definition increments (f : list Z) : Prop := forall i, 5 <= i <= 10 -> Z.abs (fld f i) <= 2 ^ 31.

Lemma imu_step st h f g a rate G A r : nh_id h = 1462 -> 0 <= nh_ms h < 2 ^ 32 -> fld f 0 mod 4 = 0 -> increments f ->
  imu_rate st h (fld f 1) = Some rate -> val rate r (2 * u53)%R -> wid 40 r ->
  gyro_scale (fld f 1) rate = Some g -> val g G (108 * u53)%R -> wid 120 G ->
  accel_scale (fld f 1) rate = Some a -> val a A (108 * u53)%R -> wid 120 A ->
  exists st1 x y z ax ay az gx gy gz rest, step st (h, NFields f) = Some (st1, [OAngRate (nh_ms h) x y z 1; OImuRaw (nh_ms h) ax ay az gx gy gz] ++ rest) /\
    near32 x (udeg_per_s (fld f 10) G r) (/ 2048) /\ near32 y (udeg_per_s (- fld f 9) G r) (/ 2048) /\ near32 z (udeg_per_s (fld f 8) G r) (/ 2048) /\
    near16 gx (gyro_units (fld f 10) G r) (/ 2048) /\ near16 gy (gyro_units (- fld f 9) G r) (/ 2048) /\ near16 gz (gyro_units (fld f 8) G r) (/ 2048) /\
    near16 ax (accel_units (fld f 7) A r) (/ 2048) /\ near16 ay (accel_units (- fld f 6) A r) (/ 2048) /\ near16 az (accel_units (fld f 5) A r) (/ 2048).
Proof.
  intros I B E0 N R VR WR GS VG WG AS VA WA. unfold nov_step. rewrite I. cbn [Z.eqb Pos.eqb]. unfold write_raw_imu.
  change 3 with (Z.ones 2) at 1. rewrite Z.land_ones by lia. change (2 ^ 2) with 4. rewrite E0. cbn [Z.eqb negb].
  pose proof (N 5 ltac:(lia)). pose proof (N 6 ltac:(lia)). pose proof (N 7 ltac:(lia)). pose proof (N 8 ltac:(lia)). pose proof (N 9 ltac:(lia)). pose proof (N 10 ltac:(lia)).
  destruct (udeg_spec g rate G r VG WG VR WR (fld f 10) ltac:(lia)) as (x & EX & NX). destruct (udeg_spec g rate G r VG WG VR WR (- fld f 9) ltac:(lia)) as (y & EY & NY).
  destruct (udeg_spec g rate G r VG WG VR WR (fld f 8) ltac:(lia)) as (z & EZ & NZ).
  destruct (units_spec g rate G r VG WG VR WR (fld f 10) ltac:(lia)) as (gx & EGX & NGX). destruct (units_spec g rate G r VG WG VR WR (- fld f 9) ltac:(lia)) as (gy & EGY & NGY).
  destruct (units_spec g rate G r VG WG VR WR (fld f 8) ltac:(lia)) as (gz & EGZ & NGZ).
  destruct (acc_spec a rate A r VA WA VR WR (fld f 7) ltac:(lia)) as (ax & EAX & NAX). destruct (acc_spec a rate A r VA WA VR WR (- fld f 6) ltac:(lia)) as (ay & EAY & NAY).
  destruct (acc_spec a rate A r VA WA VR WR (fld f 5) ltac:(lia)) as (az & EAZ & NAZ).
  assert (U : u32 (nh_ms h) = nh_ms h) by (apply Z.mod_small; exact B).
  unfold angular_rate, imu_raw. rewrite R, GS, AS. unfold map3. rewrite EX, EY, EZ, EAX, EAY, EAZ, EGX, EGY, EGZ. cbv zeta. rewrite !U.
  eexists. exists x, y, z, ax, ay, az, gx, gy, gz. eexists. split; [reflexivity|]. repeat split; assumption || apply NX || apply NY || apply NZ || apply NGX || apply NGY || apply NGZ || apply NAX || apply NAY || apply NAZ.
Qed.

(** For an IMU log without error of a type with documented units, in any history, the angular rates and accelerations sent are the increments divided by the sampling interval, in the units of
    SBP, to the nearest up to 1/2048, saturated.  The interval is the time since the previous IMU log of the same week, otherwise nominal.  (Partly true: not for the Epson accelerometers,
    not if a log was lost, and not for logs marked with an error, see below.) *)
Theorem C61_measurements_partial : forall cs st out h f r G A, run nstate0 cs = Some (st, out) -> (forall h b, In (h, b) cs -> 0 <= nh_ms h < 2 ^ 32) ->
  nh_id h = 1462 -> 0 <= nh_ms h < 2 ^ 32 -> fld f 0 mod 4 = 0 -> increments f ->
  sampling cs h (fld f 1) r -> gyro_lsb (fld f 1) r G -> accel_lsb (fld f 1) r A ->
  exists st1 x y z ax ay az gx gy gz rest, step st (h, NFields f) = Some (st1, [OAngRate (nh_ms h) x y z 1; OImuRaw (nh_ms h) ax ay az gx gy gz] ++ rest) /\
    near32 x (udeg_per_s (fld f 10) G r) (/ 2048) /\ near32 y (udeg_per_s (- fld f 9) G r) (/ 2048) /\ near32 z (udeg_per_s (fld f 8) G r) (/ 2048) /\
    near16 gx (gyro_units (fld f 10) G r) (/ 2048) /\ near16 gy (gyro_units (- fld f 9) G r) (/ 2048) /\ near16 gz (gyro_units (fld f 8) G r) (/ 2048) /\
    near16 ax (accel_units (fld f 7) A r) (/ 2048) /\ near16 ay (accel_units (- fld f 6) A r) (/ 2048) /\ near16 az (accel_units (fld f 5) A r) (/ 2048).
Proof.
  intros cs st out h f r G A R B I T E N S GL AL. destruct (rate_spec _ _ _ _ _ _ _ _ _ _ _ R B T S) as (rate & ER & VR & WR).
  destruct (gyro_val _ _ _ _ VR WR GL) as (g & EG & VG & WG). destruct (accel_val _ _ _ _ VR WR AL) as (a & EA & VA & WA).
  exact (imu_step st h f g a rate G A r I T E N ER VR WR EG VG WG EA VA WA).
Qed.
(** refuted for the Epson IMUs: the accelerations are 10^6 times too large (the angular rates are right) *)
Theorem C61_epson_refuted : forall cs st out h f r G A, run nstate0 cs = Some (st, out) -> (forall h b, In (h, b) cs -> 0 <= nh_ms h < 2 ^ 32) ->
  nh_id h = 1462 -> 0 <= nh_ms h < 2 ^ 32 -> fld f 0 mod 4 = 0 -> increments f ->
  sampling cs h (fld f 1) r -> gyro_lsb (fld f 1) r G -> epson_lsb (fld f 1) r A ->
  exists st1 x y z ax ay az gx gy gz rest, step st (h, NFields f) = Some (st1, [OAngRate (nh_ms h) x y z 1; OImuRaw (nh_ms h) ax ay az gx gy gz] ++ rest) /\
    near32 x (udeg_per_s (fld f 10) G r) (/ 2048) /\ near16 gx (gyro_units (fld f 10) G r) (/ 2048) /\
    near16 ax (1000000 * accel_units (fld f 7) A r) (/ 2048).
Proof.
  intros cs st out h f r G A R B I T E N S GL AL. destruct (rate_spec _ _ _ _ _ _ _ _ _ _ _ R B T S) as (rate & ER & VR & WR).
  destruct (gyro_val _ _ _ _ VR WR GL) as (g & EG & VG & WG). destruct (epson_acc _ _ _ _ VR WR AL) as (a & EA & VA & WA).
  destruct (imu_step st h f g a rate G (1000000 * A)%R r I T E N ER VR WR EG VG WG EA VA WA) as (st1 & x & y & z & ax & ay & az & gx & gy & gz & rest & Q & X & _ & _ & GX & _ & _ & AX & _).
  exists st1, x, y, z, ax, ay, az, gx, gy, gz, rest. split; [exact Q|]. split; [exact X|]. split; [exact GX|].
  replace (1000000 * accel_units (fld f 7) A r)%R with (accel_units (fld f 7) (1000000 * A) r) by (unfold accel_units, Rdiv; ring). exact AX.
Qed.
(** refuted: an IMU log marked with an error or as encrypted stops the program (a failed assertion) *)
Theorem C61_error_refuted : forall st h f, nh_id h = 1462 -> fld f 0 mod 4 <> 0 -> step st (h, NFields f) = None.
Proof.
  intros st h f I E. unfold nov_step. rewrite I. cbn [Z.eqb Pos.eqb]. unfold write_raw_imu. change 3 with (Z.ones 2) at 1. rewrite Z.land_ones by lia. change (2 ^ 2) with 4.
  destruct (Z.eqb_spec (fld f 0 mod 4) 0); [contradiction|]. reflexivity.
Qed.
(** refuted: when one log of a 100 Hz IMU is lost, the increment of the next is divided by two sampling intervals: every rate is halved *)
Theorem C61_gap_refuted : forall cs h h0 ty r, last_imu cs = Some h0 -> 0 < nh_week h0 -> 0 < nh_ms h0 -> nh_ms h = nh_ms h0 + 20 -> nominal ty 100 -> sampling cs h ty r ->
  (r = 50 /\ forall n G, udeg_per_s n G r = udeg_per_s n G 100 / 2)%R.
Proof.
  intros cs h h0 ty r L W M D Nm S. unfold sampling in S. rewrite L in S. destruct (Z.eqb_spec (nh_week h0) 0); [lia|]. destruct (Z.ltb_spec 0 (nh_ms h0)); [|lia].
  destruct (Z.ltb_spec (nh_ms h0) (nh_ms h)); [|lia]. cbn [negb andb] in S. replace (nh_ms h - nh_ms h0) with 20 in S by lia.
  assert (r = 50)%R by (rewrite S; lra). split; [assumption|]. intros k G. unfold udeg_per_s. rewrite H1. field. apply PI_neq0.
Qed.
(** the auxiliary message: none for a second after it was sent, then again with the first IMU log (within a week; see C61_aux_refuted) *)
Lemma step_aux st c st1 out : step st c = Some (st1, out) -> ~ In (OImuAux 1 0 0x42) out -> ns_aux_wn st1 = ns_aux_wn st /\ ns_aux_tow st1 = ns_aux_tow st.
Proof.
  destruct c as [h b]. intros S N. destruct b as [f|l]; unfold nov_step in S; [|destruct (write_range_cmp _ _ h l); [|discriminate]; apply (f_equal (fun o => match o with Some p => fst p | None => st end)) in S; cbn [fst] in S; subst; auto].
  destruct (nh_id h =? 7). { destruct (write_gps_ephem f); [|discriminate]. apply (f_equal (fun o => match o with Some p => fst p | None => st end)) in S. cbn [fst] in S. subst. auto. }
  destruct (nh_id h =? 42).
  { unfold write_best_pos, send_time in S. cbv zeta in S. destruct (float_to_u16 _); [|discriminate]. destruct (float_to_u16 _); [|discriminate].
    apply (f_equal (fun o => match o with Some p => fst p | None => st end)) in S. cbn [fst] in S. subst. auto. }
  destruct (nh_id h =? 99).
  { unfold write_best_vel, send_time in S. cbv zeta in S. destruct (sat32 _); [|discriminate]. destruct (sat32 _); [|discriminate]. destruct (sat32 _) as [v|]; [|discriminate]. destruct (v =? - 2 ^ 31); [discriminate|].
    apply (f_equal (fun o => match o with Some p => fst p | None => st end)) in S. cbn [fst] in S. subst. auto. }
  destruct (nh_id h =? 263). { destruct (write_ins_att h f); [|discriminate]. apply (f_equal (fun o => match o with Some p => fst p | None => st end)) in S. cbn [fst] in S. subst. auto. }
  destruct (nh_id h =? 1462).
  { unfold write_raw_imu in S. destruct (negb _); [discriminate|]. destruct (angular_rate st h f) as [a|]; [|discriminate]. destruct (imu_raw st h f) as [r|]; [|discriminate]. cbv zeta in S.
    assert (Q := f_equal (fun o => match o with Some p => p | None => (st, []) end) S). cbv beta iota in Q. pose proof (f_equal fst Q) as Q1. pose proof (f_equal snd Q) as Q2. cbn [fst snd] in Q1, Q2.
    destruct (imu_aux_due st h). { exfalso. apply N. rewrite <- Q2. apply in_or_app. right. apply in_or_app. right. left. reflexivity. }
    rewrite <- Q1. auto. }
  apply (f_equal (fun o => match o with Some p => fst p | None => st end)) in S. cbn [fst] in S. subst. auto.
Qed.
Lemma run_aux cs : forall st st1 out, run st cs = Some (st1, out) -> ~ In (OImuAux 1 0 0x42) out -> ns_aux_wn st1 = ns_aux_wn st /\ ns_aux_tow st1 = ns_aux_tow st.
Proof.
  induction cs as [|c cs IH]; intros st st1 out R N; cbn [nov_run] in R.
  - apply (f_equal (fun o => match o with Some p => fst p | None => st end)) in R. cbn [fst] in R. subst. auto.
  - destruct (step st c) as [[s1 o1]|] eqn:E; [|discriminate]. destruct (run s1 cs) as [[s2 o2]|] eqn:E2; [|discriminate].
    assert (Q := f_equal (fun o => match o with Some p => p | None => (st, []) end) R). cbv beta iota in Q. pose proof (f_equal fst Q) as Q1. pose proof (f_equal snd Q) as Q2. cbn [fst snd] in Q1, Q2. subst st1 out.
    destruct (IH _ _ _ E2) as [A B]. { intros X. apply N. apply in_or_app. right. exact X. }
    destruct (step_aux _ _ _ _ E) as [C D]. { intros X. apply N. apply in_or_app. left. exact X. }
    rewrite A, B. auto.
Qed.
Lemma imu_step_aux st h f st1 out : nh_id h = 1462 -> step st (h, NFields f) = Some (st1, out) ->
  (In (OImuAux 1 0 0x42) out <-> imu_aux_due st h = true) /\ (imu_aux_due st h = true -> ns_aux_wn st1 = nh_week h /\ ns_aux_tow st1 = u32 (nh_ms h)).
Proof.
  intros I S. unfold nov_step in S. rewrite I in S. cbn [Z.eqb Pos.eqb] in S. unfold write_raw_imu in S.
  destruct (negb _); [discriminate|]. destruct (angular_rate st h f) as [a|] eqn:EA; [|discriminate]. destruct (imu_raw st h f) as [r|] eqn:ER; [|discriminate]. cbv zeta in S.
  assert (Q := f_equal (fun o => match o with Some p => p | None => (st, []) end) S). cbv beta iota in Q. pose proof (f_equal fst Q) as Q1. pose proof (f_equal snd Q) as Q2. cbn [fst snd] in Q1, Q2. subst st1 out.
  split; [|intros ->; cbn [ns_aux_wn ns_aux_tow]; auto]. split; [|intros ->; apply in_or_app; right; apply in_or_app; right; left; reflexivity].
  intros J. destruct (imu_aux_due st h); [reflexivity|]. rewrite app_nil_r in J. apply in_app_or in J. exfalso. destruct J as [J|J].
  - revert EA J. unfold angular_rate. destruct (imu_rate st h (fld f 1)); [|intros [= <-] []]. destruct (gyro_scale (fld f 1) _); [|intros [= <-] []].
    unfold map3. destruct (gyro_udeg (fld f 10) _ _); [|discriminate]. destruct (gyro_udeg (- fld f 9) _ _); [|discriminate]. destruct (gyro_udeg (fld f 8) _ _); [|discriminate]. intros [= <-] [H|[]]. discriminate.
  - revert ER J. unfold imu_raw. destruct (imu_rate st h (fld f 1)); [|intros [= <-] []]. destruct (gyro_scale (fld f 1) _); [|intros [= <-] []]. destruct (accel_scale (fld f 1) _); [|intros [= <-] []].
    unfold map3. destruct (acc_counts (fld f 7) _ _); [|discriminate]. destruct (acc_counts (- fld f 6) _ _); [|discriminate]. destruct (acc_counts (fld f 5) _ _); [|discriminate].
    destruct (gyro_counts (fld f 10) _ _); [|discriminate]. destruct (gyro_counts (- fld f 9) _ _); [|discriminate]. destruct (gyro_counts (fld f 8) _ _); [|discriminate]. intros [= <-] [H|[]]. discriminate.
Qed.
Theorem C61_aux_first : forall cs st out h f st1 out1, run nstate0 cs = Some (st, out) -> ~ In (OImuAux 1 0 0x42) out -> nh_id h = 1462 ->
  step st (h, NFields f) = Some (st1, out1) -> In (OImuAux 1 0 0x42) out1.
Proof.
  intros cs st out h f st1 out1 R N I S. destruct (run_aux _ _ _ _ R N) as [A B]. apply (proj1 (imu_step_aux _ _ _ _ _ I S)).
  unfold imu_aux_due. rewrite A. reflexivity.
Qed.
Theorem C61_aux_period_partial : forall st h0 f0 st1 out1 cs st2 out2 h f st3 out3, nh_id h0 = 1462 -> step st (h0, NFields f0) = Some (st1, out1) -> In (OImuAux 1 0 0x42) out1 ->
  run st1 cs = Some (st2, out2) -> ~ In (OImuAux 1 0 0x42) out2 -> nh_id h = 1462 -> step st2 (h, NFields f) = Some (st3, out3) ->
  0 < nh_week h0 -> 0 < nh_week h -> 0 < nh_ms h0 < 604800000 -> 0 < nh_ms h < 604800000 ->
  (In (OImuAux 1 0 0x42) out3 <-> nh_ms h0 + 1000 <= nh_ms h).
Proof.
  intros st h0 f0 st1 out1 cs st2 out2 h f st3 out3 I0 S0 A0 R N I S W0 W M0 M. destruct (imu_step_aux _ _ _ _ _ I0 S0) as [X Y]. destruct (Y (proj1 X A0)) as [U V].
  destruct (run_aux _ _ _ _ R N) as [A B]. rewrite (proj1 (imu_step_aux _ _ _ _ _ I S)). unfold imu_aux_due. rewrite A, B, U, V. unfold u32.
  rewrite (Z.mod_small (nh_ms h0)) by lia. rewrite (Z.mod_small (nh_ms h)) by lia. rewrite (Z.mod_small (nh_ms h0 + 1000)) by lia.
  destruct (Z.eqb_spec (nh_week h0) 0); [lia|]. destruct (Z.eqb_spec (nh_week h) 0); [lia|]. destruct (Z.eqb_spec (nh_ms h0) 0); [lia|]. destruct (Z.eqb_spec (nh_ms h) 0); [lia|].
  destruct (Z.ltb_spec (nh_ms h) (nh_ms h0 + 1000)); cbn; split; intros; lia || discriminate || reflexivity.
Qed.
(** refuted: the auxiliary message (IMU type and range), sent every second, is not sent any more after the end of a week *)
Theorem C61_aux_refuted : forall st h0 f0 st1 out1 h f st2 out2, nh_id h0 = 1462 -> nh_id h = 1462 -> 0 < nh_week h0 ->
  nh_ms h0 = 604799500 -> step st (h0, NFields f0) = Some (st1, out1) -> In (OImuAux 1 0 0x42) out1 ->
  nh_week h = nh_week h0 + 1 -> 0 < nh_ms h < 604800000 -> step st1 (h, NFields f) = Some (st2, out2) -> ~ In (OImuAux 1 0 0x42) out2.
Proof.
  intros st h0 f0 st1 out1 h f st2 out2 I0 I W M S1 A1 WH MH S2.
  assert (NA : forall st h f a, angular_rate st h f = Some a -> ~ In (OImuAux 1 0 0x42) a).
  { intros s k q a. unfold angular_rate. destruct (imu_rate s k (fld q 1)); [|intros [= <-] []]. destruct (gyro_scale (fld q 1) _); [|intros [= <-] []].
    unfold map3. destruct (gyro_udeg (fld q 10) _ _); [|discriminate]. destruct (gyro_udeg (- fld q 9) _ _); [|discriminate]. destruct (gyro_udeg (fld q 8) _ _); [|discriminate]. intros [= <-] [H|[]]. discriminate. }
  assert (NR : forall st h f a, imu_raw st h f = Some a -> ~ In (OImuAux 1 0 0x42) a).
  { intros s k q a. unfold imu_raw. destruct (imu_rate s k (fld q 1)); [|intros [= <-] []]. destruct (gyro_scale (fld q 1) _); [|intros [= <-] []]. destruct (accel_scale (fld q 1) _); [|intros [= <-] []].
    unfold map3. destruct (acc_counts (fld q 7) _ _); [|discriminate]. destruct (acc_counts (- fld q 6) _ _); [|discriminate]. destruct (acc_counts (fld q 5) _ _); [|discriminate].
    destruct (gyro_counts (fld q 10) _ _); [|discriminate]. destruct (gyro_counts (- fld q 9) _ _); [|discriminate]. destruct (gyro_counts (fld q 8) _ _); [|discriminate]. intros [= <-] [H|[]]. discriminate. }
  unfold nov_step in S1, S2. rewrite I0 in S1. rewrite I in S2. cbn [Z.eqb Pos.eqb] in S1, S2. unfold write_raw_imu in S1, S2.
  destruct (negb (Z.land (fld f0 0) 3 =? 0)); [discriminate|]. destruct (angular_rate st h0 f0) as [a0|] eqn:EA0; [|discriminate]. destruct (imu_raw st h0 f0) as [r0|] eqn:ER0; [|discriminate].
  cbv zeta in S1. assert (Q := f_equal (fun o => match o with Some p => p | None => (st, []) end) S1). cbv beta iota in Q. clear S1.
  pose proof (f_equal fst Q) as Q1. pose proof (f_equal snd Q) as Q2. cbn [fst snd] in Q1, Q2. clear Q.
  assert (D : imu_aux_due st h0 = true).
  { destruct (imu_aux_due st h0) eqn:D; [reflexivity|]. exfalso. rewrite <- Q2 in A1. apply in_app_or in A1. destruct A1 as [A1|A1]; [exact (NA _ _ _ _ EA0 A1)|].
    rewrite app_nil_r in A1. exact (NR _ _ _ _ ER0 A1). }
  rewrite D in Q1. destruct (negb (Z.land (fld f 0) 3 =? 0)); [discriminate|]. destruct (angular_rate st1 h f) as [a1|] eqn:EA1; [|discriminate]. destruct (imu_raw st1 h f) as [r1|] eqn:ER1; [|discriminate].
  assert (D1 : imu_aux_due st1 h = false).
  { unfold imu_aux_due. rewrite <- Q1. cbn [ns_aux_wn ns_aux_tow]. unfold u32. rewrite M. rewrite (Z.mod_small (nh_ms h)) by lia. change (604799500 mod 2 ^ 32) with 604799500.
    change ((604799500 + 1000) mod 2 ^ 32) with 604800500. destruct (Z.eqb_spec (nh_week h0) 0); [lia|]. destruct (Z.eqb_spec (nh_week h) 0); [lia|]. destruct (Z.eqb_spec (nh_ms h) 0); [lia|].
    change (604799500 =? 0) with false. destruct (Z.ltb_spec (nh_ms h) 604800500); [reflexivity|lia]. }
  cbv zeta in S2. rewrite D1 in S2. assert (Q := f_equal (fun o => match o with Some p => snd p | None => [] end) S2). cbv beta iota in Q. cbn [snd] in Q. rewrite <- Q.
  intros J. apply in_app_or in J. destruct J as [J|J]; [exact (NA _ _ _ _ EA1 J)|]. rewrite app_nil_r in J. exact (NR _ _ _ _ ER1 J).
Qed.
End P.
(** hypotheses met: two logs of an HG1900 (type 27, 100 Hz) 10 ms apart *)
Definition imu_hdr (ms : Z) : nhdr := mk_nhdr 36 1462 2100 ms.
Definition imu_log : list Z := [0; 27; 2100; 0; 0; 1000000; -200; 4000; 5000000; -60; 70000].
Example C61_met : exists st out, nov_run (fun _ => 0) (fun _ _ => true) (fun _ _ => dofZ 0) (fun _ => dofZ 0) (fun _ => dofZ 1) nstate0 [(imu_hdr 1000, NFields imu_log)] = Some (st, out) /\
  out = [OAngRate 1000 46691 40 3335053 1; OImuRaw 1000 0 0 95 12 0 874; OImuAux 1 0 0x42] /\ increments imu_log /\
  sampling [(imu_hdr 1000, NFields imu_log)] (imu_hdr 1010) 27 100 /\ gyro_lsb 27 100 (/ IZR (2 ^ 33)) /\ accel_lsb 27 100 (3048 / 10000 / IZR (2 ^ 27)).
Proof.
  do 2 eexists. split; [vm_compute; reflexivity|]. split; [reflexivity|]. split.
  - intros i H. assert (C : i = 5 \/ i = 6 \/ i = 7 \/ i = 8 \/ i = 9 \/ i = 10) by lia. unfold fld. destruct C as [-> | [-> | [-> | [-> | [-> | ->]]]]]; vm_compute; repeat split; try reflexivity; try discriminate.
  - split; [unfold sampling; cbn; lra|]. split; constructor; cbn; auto 10.
Qed.
Print Assumptions C61_measurements_partial.
Print Assumptions C61_epson_refuted.
Print Assumptions C61_error_refuted.
Print Assumptions C61_gap_refuted.
Print Assumptions C61_aux_first.
Print Assumptions C61_aux_period_partial.
Print Assumptions C61_aux_refuted.
