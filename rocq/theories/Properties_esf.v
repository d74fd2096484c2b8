(** C38: UBX inertial timestamps and ticks.  Specification in Esf_spec.v. *)
From Coq Require Import Reals Lra.
From Verif Require Import Base UbxVar_model Double_model Esf_model Esf_spec Esf_proofs Esf_loop_proofs.
Open Scope Z_scope.

(** the state after a history and the specification's view of it *)
Definition run_state (h : list (esf_meas + esf_raw)) : esf_state := fst (esf_run esf_init h).
Definition run_outs (h : list (esf_meas + esf_raw)) : list esf_out := snd (esf_run esf_init h).

Lemma meas_step s p T m : 0 <= tag m < 2 ^ 32 -> odo_rel p s -> tick_state s T -> exists s' outs T' p',
  handle_esf_meas s m = (s', outs) /\ same_imu s s' /\ odo_rel p' s' /\ tick_state s' T' /\ filter is_imu_raw outs = [] /\ Forall (fun o => is_odo_out o = true) outs /\
  forall r, outs ++ expected_odo T' (accepted p' r) = expected_odo T (accepted p (m :: r)).
Proof.
  intros Ht Hp HT. unfold handle_esf_meas. rewrite has_calib_eq, num_meas_eq. fold (tag m). cbn [accepted].
  destruct (calibrated m).
  2: { exists s, [], T, p. split; [reflexivity|]. split; [repeat split|]. auto. }
  set (l := take ((em_flags m / 2 ^ 11) mod 32) (em_data m)). change (odo_items m) with (items_of l).
  assert (A : match p with None => true | Some p => (0 <=? tag m - p) && (tag m - p <=? 1000) end = true ->
     running_odo s = -1 \/ running_odo s = last_odo s /\ 0 <= tag m - running_odo s <= 1000).
  { intros E. destruct p as [p|]; [|left; exact Hp]. destruct Hp as (H1 & H2 & H3). right. rewrite H1, H2. split; [reflexivity|lia]. }
  assert (EX : forall a T0 r, exists T', T' = ticks_of T0 a /\ expected_odo T0 (map (fun d => (tag m, d)) a) ++ expected_odo T' r = expected_odo T0 (map (fun d => (tag m, d)) a ++ r)).
  { induction a as [|d a IH]; intros T0 r; [exists T0; split; [unfold ticks_of; cbn [filter map]; rewrite app_nil_r; reflexivity|reflexivity]|].
    cbn [map app expected_odo]. unfold ticks_of. cbn [filter]. destruct (item_type d =? 11); cbn [negb].
    - destruct (IH T0 r) as (T' & E1 & E2). exists T'. split; [exact E1|]. cbn [app]. rewrite E2. reflexivity.
    - destruct (IH (T0 ++ [tick_of d]) r) as (T' & E1 & E2). exists T'. split; [rewrite E1; unfold ticks_of; cbn [map]; rewrite <- app_assoc; reflexivity|]. cbn [app]. rewrite E2. reflexivity. }
  destruct (match p with None => true | Some p => (0 <=? tag m - p) && (tag m - p <=? 1000) end) eqn:FR.
  - destruct (meas_accept (tag m) l Ht s T HT (A eq_refl)) as (s' & E & SI & TS & F).
    pose proof (expected_odo_imu T (map (fun d => (tag m, d)) (items_of l))) as [G1 G2].
    exists s', (expected_odo T (map (fun d => (tag m, d)) (items_of l))), (ticks_of T (items_of l)), (match items_of l with [] => p | _ => Some (tag m) end).
    split; [exact E|]. split; [exact SI|]. split; [|split; [exact TS|split; [exact G1|split; [exact G2|]]]].
    + destruct F as [[F1 F2]|[F1 F2]]; [rewrite F1, F2; exact Hp|]. destruct (items_of l) eqn:IL; [|cbn; auto].
      assert (E0 : meas_loop (tag m) l s = (s, [])).
      { clear - IL. induction l as [|d l IH]; [reflexivity|]. unfold items_of in IL. cbn [filter] in IL. cbn [meas_loop]. cbv zeta. rewrite item_type_eq.
        unfold is_odo. destruct ((6 <=? item_type d) && (item_type d <=? 11)); [discriminate|]. apply IH. exact IL. }
      rewrite E0 in E. injection E as <-. exact Hp.
    + intros r. destruct (EX (items_of l) T (accepted (match items_of l with [] => p | _ => Some (tag m) end) r)) as (T' & E1 & E2). subst T'. rewrite E2.
      destruct (items_of l); reflexivity.
  - destruct p as [p|]; [|discriminate]. destruct Hp as (H1 & H2 & H3).
    rewrite (meas_reject (tag m) l Ht s) by lia. destruct (items_of l).
    + exists s, [], T, (Some p). split; [reflexivity|]. split; [repeat split|]. split; [repeat split; auto; lia|]. auto.
    + eexists _, [], T, None. split; [reflexivity|]. split; [repeat split|]. split; [reflexivity|]. split; [exact HT|]. auto.
Qed.
Lemma run_spec h : forall s p T c N, Forall wf h -> odo_rel p s -> tick_state s T -> imu_rel c s -> sent s mod 20 = N mod 20 ->
  let '(s', outs) := esf_run s h in
  filter is_odo_out outs = expected_odo T (accepted p (meas_of h)) /\ imu_rel (fold_left clock_step (raw_of h) c) s' /\ aux_ok N outs.
Proof.
  induction h as [|x h IH]; intros s p T c N W Hp HT Hc HN; [cbn [esf_run]; split; [reflexivity|]; split; [exact Hc|exact I]|].
  inversion W as [|x' h' W1 W2]; subst. cbn [esf_run]. destruct x as [m|m]; cbn [esf_step meas_of raw_of flat_map].
  - cbn [wf] in W1. destruct (meas_step s p T m W1 Hp HT) as (s1 & o1 & T' & p' & E & SI & Hp' & HT' & G1 & G2 & AC). rewrite E.
    destruct SI as (S1 & S2 & S3 & S4).
    specialize (IH s1 p' T' c N W2 Hp' HT'). destruct (esf_run s1 h) as [s2 o2].
    destruct IH as (I1 & I2 & I3). { destruct c; unfold imu_rel in *; rewrite S1, ?S2; exact Hc. } { rewrite S3. exact HN. }
    split; [|split; [exact I2|]].
    + rewrite filter_app, I1, (filter_all _ _ G2). cbn [app]. apply AC.
    + apply aux_ok_app; [apply aux_ok_odo; assumption|]. unfold imu_count. rewrite G1. change (len []) with 0. rewrite Z.add_0_r. exact I3.
  - cbn [wf] in W1. pose proof (raw_step s c m W1 Hc) as P.
    pose proof (raw_loop_aux (er_msss m) (snd (znth (0, 0) 0 (er_data m))) (er_data m) s (mk_imu_loop (fun _ => 0) 0 (fun _ => 0)) N HN) as AX.
    fold (handle_esf_raw s m) in AX. destruct (handle_esf_raw s m) as [s1 o1]. destruct P as (P1 & P2 & P3 & _). destruct AX as [AX1 AX2].
    destruct P1 as (Q1 & Q2 & Q3 & Q4). specialize (IH s1 p T (clock_step c m) (N + imu_count o1) W2).
    destruct (esf_run s1 h) as [s2 o2]. destruct IH as (I1 & I2 & I3).
    { destruct p; unfold odo_rel in *; rewrite Q1, ?Q2; exact Hp. } { unfold tick_state in *. rewrite Q3, Q4. exact HT. } { exact P3. } { exact AX2. }
    split; [|split; [exact I2|]].
    + rewrite filter_app, P2. cbn [app]. exact I1.
    + apply aux_ok_app; assumption.
Qed.

(** Odometry and wheel ticks: for every history of ESF messages, the odometry and wheel-tick messages produced are exactly those of the
    specification: one per accepted item, in order, with the sign/magnitude decoding of the item, the accumulated tick count (modulo 2^32)
    of all accepted tick samples so far, and the item's time tag. *)
Theorem C38_odometry h : Forall wf h ->
  filter is_odo_out (run_outs h) = expected_odo [] (accepted None (meas_of h)).
Proof.
  intros W. unfold run_outs. pose proof (run_spec h esf_init None [] None 0 W eq_refl eq_refl eq_refl eq_refl) as P.
  destruct (esf_run esf_init h) as [s' outs]. apply P.
Qed.
(** Inertial samples: after every history, an ESF-RAW message yields exactly the complete sample sets (k-th sample of each of the six axes), stamped
    with the unwrapped clock plus the sensor time difference; nothing after a gap of more than a second; and if no axis gets ahead of
    another by more than one sample, all complete sets are output. *)
Theorem C38_imu h m : Forall wf h -> 0 <= er_msss m < 2 ^ 32 ->
  let outs := filter is_imu_raw (snd (handle_esf_raw (run_state h) m)) in
  match clock_step (fold_left clock_step (raw_of h) None) m with
  | None => outs = []
  | Some R =>
      (forall k o, nth_error outs k = Some o -> kth_imu R (snd (znth (0, 0) 0 (er_data m))) (er_data m) k o) /\
      ((forall n t u, In t axes -> In u axes ->
          len (axis t (firstn n (er_data m))) <= len (axis u (firstn n (er_data m))) + 1) ->
       (exists t, In t axes /\ len (axis t (er_data m)) = len outs) /\ (forall u, In u axes -> len outs <= len (axis u (er_data m))))
  end.
Proof.
  intros W Hm. unfold run_state. pose proof (run_spec h esf_init None [] None 0 W eq_refl eq_refl eq_refl eq_refl) as P.
  destruct (esf_run esf_init h) as [s' outs]. destruct P as (_ & P & _). cbn [fst].
  pose proof (raw_step s' (fold_left clock_step (raw_of h) None) m Hm P) as Q. destruct (handle_esf_raw s' m) as [s2 o2]. cbn [snd]. cbv zeta.
  destruct Q as (_ & _ & _ & Q1 & Q2). destruct (clock_step (fold_left clock_step (raw_of h) None) m) as [R|]; [|apply Q1; reflexivity].
  destruct (Q2 R eq_refl) as [Q3 Q4]. split; [exact Q3|]. intros B. destruct (Q4 B) as (t & T1 & T2 & T3). split; [exists t; split; assumption|exact T3].
Qed.
(** Every 20th inertial message, starting with the first, is preceded by exactly one auxiliary (temperature/configuration) message. *)
Theorem C38_aux_every_20 h : Forall wf h -> aux_ok 0 (run_outs h).
Proof.
  intros W. unfold run_outs. pose proof (run_spec h esf_init None [] None 0 W eq_refl eq_refl eq_refl eq_refl) as P.
  destruct (esf_run esf_init h) as [s' outs]. apply P.
Qed.
(** The time stamps: milliseconds (odometry), microseconds (wheel ticks) modulo one week, exact or one unit early. *)
Theorem C38_odo_time m : 0 <= m < 2 ^ 40 ->
  exists t d k, odo_tow m = Some t /\ 0 <= t <= 604800000 /\ 0 <= d <= 1 /\ m = t + d + 604800000 * k.
Proof. intros H. destruct (odo_tow_spec m H) as (t & E & B & d & k & D & F). exists t, d, k. auto. Qed.
Theorem C38_wheel_time m : 0 <= m < 2 ^ 40 ->
  exists t d k, wheel_time m = Some t /\ 0 <= t <= 604800000000 /\ 0 <= d <= 1 /\ m * 1000 = t + d + 604800000000 * k.
Proof. intros H. destruct (wheel_time_spec m H) as (t & E & B & d & k & D & F). exists t, d, k. auto. Qed.
(** inertial messages: clock (ms) + sensor ticks of 39.0625 us - 50 ms, modulo a week, within 1/256 ms below and 1 us above; the time-reference flag is bit 30 *)
Theorem C38_imu_time m d : 0 <= m < 2 ^ 40 -> 0 <= d < 2 ^ 31 -> exists t f k, imu_time m d = Some (t + 2 ^ 30, f) /\
  0 <= t <= 604800000 /\ 0 <= f <= 255 /\
  (-(1/256) - 0.001 <= IZR t + IZR f / 256 - (IZR m + IZR d * 0.0390625 - 50 - 604800000 * IZR k) <= 0.001)%R.
Proof. apply imu_time_spec. Qed.
(** the sensor time difference is taken modulo the 24-bit counter *)
Theorem C38_sensor_wrap ts ts0 : 0 <= ts < 2 ^ 24 -> 0 <= ts0 < 2 ^ 24 -> sensor_diff ts ts0 = (ts - ts0) mod 2 ^ 24.
Proof.
  intros H H0. unfold sensor_diff, to_s32_wrap. cbv zeta. destruct (Z.ltb_spec ((ts - ts0) mod 2 ^ 32) (2 ^ 31)).
  - destruct (Z.ltb_spec ((ts - ts0) mod 2 ^ 32) 0); lia.
  - destruct (Z.ltb_spec ((ts - ts0) mod 2 ^ 32 - 2 ^ 32) 0); lia.
Qed.
(** the sample values: angular rate in units of 125/32768 deg/s, specific force in units of 4 g/32768, saturated, rounded to nearest *)
Theorem C38_gyro_scale v : Z.abs v <= 2 ^ 23 -> -32768 <= scale_gyr v <= 32767 /\
  (Rabs (IZR (scale_gyr v) - Rmax (-32768) (Rmin 32767 (IZR v * 2 ^ 3 / 125))) <= / 2 + / 512)%R.
Proof. intros H. replace (IZR v * 2 ^ 3 / 125)%R with (IZR v * 8 / 125)%R by lra. apply (scale_gyr_spec v H). Qed.
Theorem C38_acc_scale v : Z.abs v <= 2 ^ 23 -> -32768 <= scale_acc v <= 32767 /\
  (Rabs (IZR (scale_acc v) - Rmax (-32768) (Rmin 32767 (IZR v * 2 ^ 3 / 9.80665))) <= / 2 + / 128)%R.
Proof. intros H. replace (IZR v * 2 ^ 3 / 9.80665)%R with (IZR v * 8 / 9.80665)%R by lra. apply (scale_acc_spec v H). Qed.
(** the reported temperature: units of 1/512 degree relative to 23 degrees, saturated; -32768 ("invalid") only if no temperature was received *)
Theorem C38_temperature v : Z.abs v <= 2 ^ 23 -> -32767 <= aux_temp (Some v) <= 32767 /\
  (Rabs (IZR (aux_temp (Some v)) - Rmax (-32767) (Rmin 32767 ((IZR v / 100 - 23) * 512))) <= 1.001)%R.
Proof. apply aux_temp_spec. Qed.
(** Beyond the specification above, what a user would expect is refuted: the tick counters of different wheels are mixed into one accumulated
    count.  Two wheels standing still at counts 7 and 100000, the second reported with the reverse flag set: its count goes from 100000 to -99986. *)
Definition wheel_item (t c : Z) : Z := t * 2 ^ 24 + c.
Definition meas_msg (t : Z) (l : list Z) : esf_meas := mk_esf_meas 0x10 2 0 t (len l * 2 ^ 11 + 8) 0 l (Some t).
Theorem C38_wheels_mixed_refuted :
  run_outs [inl (meas_msg 1000 [wheel_item 8 7; wheel_item 9 100000]); inl (meas_msg 1100 [wheel_item 8 7; wheel_item 9 (100000 + 2 ^ 23)])] =
  [Wheeltick (Some 1000000) 2 1 7; Wheeltick (Some 1000000) 2 0 100000; Wheeltick (Some 1100000) 2 1 7; Wheeltick (Some 1100000) 2 0 (-99986)].
Proof. vm_compute. reflexivity. Qed.
(** ... a wheel passing the 22-bit (by the mask used) counter wrap is reported as jumping backwards by 4194304 ticks ... *)
Theorem C38_counter_wrap_refuted :
  run_outs [inl (meas_msg 1000 [wheel_item 8 (2 ^ 22 - 1)]); inl (meas_msg 1100 [wheel_item 8 (2 ^ 22)])] =
  [Wheeltick (Some 1000000) 2 1 (2 ^ 22 - 1); Wheeltick (Some 1100000) 2 1 0].
Proof. vm_compute. reflexivity. Qed.
(** ... and time stamps are not exact: 4007 ms is stamped 4006 ms, 1025 ms as 1024999 us. *)
Theorem C38_time_truncated_refuted : odo_tow 4007 = Some 4006 /\ wheel_time 1025 = Some 1024999.
Proof. split; vm_compute; reflexivity. Qed.
(** hypotheses met: speed -5, ticks forward, a gap, inertial data with clock wrap *)
Definition imu_round (ts v : Z) : list (Z * Z) := [(wheel_item 14 v, ts); (wheel_item 13 v, ts); (wheel_item 5 v, ts); (wheel_item 12 2500, ts); (wheel_item 16 v, ts); (wheel_item 17 v, ts); (wheel_item 18 v, ts)].
Example C38_nonvacuous :
  run_outs [inl (meas_msg 5000 [wheel_item 11 (2 ^ 24 - 5); wheel_item 8 70]); inl (meas_msg 5100 [wheel_item 8 75]); inl (meas_msg 9000 [wheel_item 8 76]);
            inl (meas_msg 9100 [wheel_item 8 80]);
            inr (mk_esf_raw 0x10 3 0 (2 ^ 32 - 10) (imu_round 16777210 1000)); inr (mk_esf_raw 0x10 3 0 20 (imu_round 16777210 (-1000 + 2 ^ 24) ++ imu_round 20 500))] =
  [Odometry (Some 5000) 58 (-5); Wheeltick (Some 5000000) 2 1 70; Wheeltick (Some 5100000) 2 1 75; Wheeltick (Some 9100000) 2 1 80;
   ImuAux 1024; ImuRaw (Some (61367236 + 2 ^ 30, 0)) 816 816 816 64 64 64;
   ImuRaw (Some (61367265 + 2 ^ 30, 255)) (-816) (-816) (-816) (-64) (-64) (-64); ImuRaw (Some (61367267 + 2 ^ 30, 3)) 408 408 408 32 32 32].
Proof. vm_compute. reflexivity. Qed.
Print Assumptions C38_odometry.
Print Assumptions C38_imu.
Print Assumptions C38_aux_every_20.
Print Assumptions C38_odo_time.
Print Assumptions C38_wheel_time.
Print Assumptions C38_imu_time.
Print Assumptions C38_sensor_wrap.
Print Assumptions C38_gyro_scale.
Print Assumptions C38_acc_scale.
Print Assumptions C38_temperature.
Print Assumptions C38_wheels_mixed_refuted.
Print Assumptions C38_counter_wrap_refuted.
Print Assumptions C38_time_truncated_refuted.
