(** C62-C64: SBP messages made from UBX navigation messages.
    [mw] is gps_time_match_weeks_safe of libswiftnav, outside /repo: theorems hold for every such function (C64_offset asks that the week it finds is the nearest). *)
From Coq Require Import Reals Lra.
From Flocq Require Import Core IEEE754.Binary IEEE754.Bits.
From Verif Require Import Base Double_model Double_proofs Bytestream_model Bytestream_proofs Esf_model Esf_proofs Near_proofs Ixcom_model Signals_model UbxMsg_model UbxMsg_proofs UbxVar_model UbxVar_proofs UbxObs_model
  NovImu_proofs UbxNav_model UbxNav_spec UbxNav_proofs.
Open Scope Z_scope.

Section P.
Variable mw : dbl -> Z * dbl -> option Z.
Notation step := (unav_step mw).
Notation run := (uproc mw).

Ltac fitb F := clear -F; unfold nav_pvt_fits, hnr_pvt_fits, nav_att_fits, nav_velecef_fits, nav_status_fits, ufits, sfits in F;
  repeat match type of F with ?A /\ ?B => let G := fresh in destruct F as [G F]; match A with Forall _ _ => clear G | len _ = _ => clear G | _ => idtac end end;
  change (256 ^ Z.of_nat 4) with 4294967296 in *; change (256 ^ Z.of_nat 1) with 256 in *; change (256 ^ Z.of_nat 2) with 65536 in *; change (2 ^ 32) with 4294967296; lia.

(** ** C62 *)
(** without high rate output, every NAV-PVT is sent as one position: same time of week, coordinates in degrees and height in metres, accuracies in mm saturated at 65535, number of satellites,
    fix mode *)
Theorem C62_position : forall g s m r, nav_pvt_fits m -> ui_hnr s = false ->
  exists g1 lat lon h fl, step g s (encode_nav_pvt m ++ r) = Some (g1, s, [UPos (nav_pvt_i_tow m) lat lon h (Z.min (nav_pvt_horizontal_accuracy m) 65535) (Z.min (nav_pvt_vertical_accuracy m) 65535) (nav_pvt_num_sats m) fl]) /\
    decimal lat (nav_pvt_lat m) 7 /\ decimal lon (nav_pvt_lon m) 7 /\ decimal h (nav_pvt_height m) 3 /\ pos_flags (nav_pvt_fix_type m) (nav_pvt_flags m) fl.
Proof.
  intros g s m r F H. rewrite (step_pvt mw g s m r F), H. unfold fill_pos. cbn [fst snd]. rewrite !acc_u16_spec. do 5 eexists. split; [reflexivity|].
  split; [apply lat_val; fitb F|]. split; [apply lat_val; fitb F|]. split; [apply height_val; fitb F|]. apply pvt_flags_spec; fitb F.
Qed.
(** with high rate output, every HNR-PVT is sent as a position followed by an attitude.  The fix mode and number of satellites of the position are those of the last NAV-PVT that ANY
    converter of the process received (partly: of another converter perhaps, see C62_shared_refuted); roll, pitch, their accuracies and flags are those of the attitude in memory *)
Theorem C62_hnr_position_partial : forall g ss es j m r g1 ss1 out k h r2 es2,
  run g ss (es ++ (j, EFrame (encode_nav_pvt m ++ r)) :: es2 ++ [(k, EFrame (encode_hnr_pvt h ++ r2))]) = Some (g1, ss1, out) ->
  nav_pvt_fits m -> hnr_pvt_fits h -> (forall i e, In (i, e) es2 -> ~ is_frame 1 7 e) ->
  hnr_on k (es ++ (j, EFrame (encode_nav_pvt m ++ r)) :: es2) (ui_hnr (ss k)) = true ->
  exists out0 lat lon hgt fl o, out = out0 ++ [(k, UPos (hnr_pvt_i_tow h) lat lon hgt (Z.min (hnr_pvt_horizontal_accuracy h) 65535) (Z.min (hnr_pvt_vertical_accuracy h) 65535) (nav_pvt_num_sats m) fl); (k, UOrient o)] /\
    decimal lat (hnr_pvt_lat h) 7 /\ decimal lon (hnr_pvt_lon h) 7 /\ decimal hgt (hnr_pvt_height h) 3 /\ pos_flags (nav_pvt_fix_type m) (nav_pvt_flags m) fl.
Proof.
  intros g ss es j m r g1 ss1 out k h r2 es2 R FM FH N ON.
  change ((j, EFrame (encode_nav_pvt m ++ r)) :: es2 ++ [(k, EFrame (encode_hnr_pvt h ++ r2))]) with (((j, EFrame (encode_nav_pvt m ++ r)) :: es2) ++ [(k, EFrame (encode_hnr_pvt h ++ r2))]) in R.
  rewrite app_assoc in R. apply proc_app in R. destruct R as (g2 & ss2 & o1 & o2 & R1 & R2 & ->).
  destruct (proc_keeps mw k _ _ _ _ _ _ R1) as (_ & _ & HN). rewrite ON in HN.
  apply proc_app in R1. destruct R1 as (g3 & ss3 & p1 & p2 & R1 & R3 & ->).
  cbn [uproc uev_step] in R3. rewrite (step_pvt mw g3 (ss3 j) m r FM) in R3.
  destruct (run (snd (fill_pos m)) _ es2) as [[[g4 ss4] o4]|] eqn:R4; [|discriminate]. injection R3 as <- <- <-.
  destruct (proc_keeps mw k _ _ _ _ _ _ R4) as (HG & _ & _). specialize (HG N). subst g4. cbn [uproc uev_step] in R2. rewrite (step_hnr mw _ _ h r2 FH) in R2.
  unfold handle_hnr_pvt in R2. destruct (times10 _) as [yaw|]; [|discriminate]. rewrite HN in R2. unfold fill_pos_hnr, fill_pos in R2. cbn [snd pv_nsats pv_flags map app] in R2. injection R2 as _ _ <-.
  rewrite !acc_u16_spec. do 6 eexists. split; [reflexivity|].
  split; [apply lat_val; fitb FH|]. split; [apply lat_val; fitb FH|]. split; [apply height_val; fitb FH|]. apply pvt_flags_spec; fitb FM.
Qed.
(** a NAV-ATT is sent (without high rate output) as one attitude in micro-degrees, accuracies in degrees, the INS flag as in the last NAV-PVT; undefined beyond +-2147.48364 degrees *)
Theorem C62_attitude_partial : forall g s m r, nav_att_fits m -> ui_hnr s = false -> Z.abs (nav_att_roll m) <= 214748364 -> Z.abs (nav_att_pitch m) <= 214748364 -> Z.abs (nav_att_heading m) <= 214748364 ->
  exists o, step g s (encode_nav_att m ++ r) = Some (g, mkuinst (ui_hnr s) o (ui_obs s) (ui_imu s) (ui_week s), [UOrient o]) /\
    or_tow o = nav_att_i_tow m /\ or_roll o = 10 * nav_att_roll m /\ or_pitch o = 10 * nav_att_pitch m /\ or_yaw o = 10 * nav_att_heading m /\
    decimal32 (or_racc o) (nav_att_acc_roll m) /\ decimal32 (or_pacc o) (nav_att_acc_pitch m) /\ decimal32 (or_yacc o) (nav_att_acc_heading m) /\ or_flags o = (if uses_ins (pv_fix g) then 1 else 0).
Proof.
  intros g s m r F H R P Y. rewrite (step_att mw g s m r F), H. unfold fill_orient. rewrite !times10_ok by assumption. rewrite <- H. eexists. split; [rewrite H; reflexivity|]. cbn [or_tow or_roll or_pitch or_yaw or_racc or_pacc or_yacc or_flags].
  split; [reflexivity|]. split; [reflexivity|]. split; [reflexivity|]. split; [reflexivity|]. split; [apply acc_val; fitb F|]. split; [apply acc_val; fitb F|]. split; [apply acc_val; fitb F|]. reflexivity.
Qed.
(** the attitude sent with a HNR-PVT: roll, pitch, their accuracies and the flags are those of the last NAV-ATT this converter received, heading and time those of the HNR-PVT *)
Theorem C62_hnr_attitude_partial : forall g ss es m r g1 ss1 out k h r2 es2,
  run g ss (es ++ (k, EFrame (encode_nav_att m ++ r)) :: es2 ++ [(k, EFrame (encode_hnr_pvt h ++ r2))]) = Some (g1, ss1, out) ->
  nav_att_fits m -> hnr_pvt_fits h -> (forall e, In (k, e) es2 -> ~ is_frame 1 5 e) ->
  hnr_on k (es ++ (k, EFrame (encode_nav_att m ++ r)) :: es2) (ui_hnr (ss k)) = true ->
  exists out0 pos o, out = out0 ++ [(k, pos); (k, UOrient o)] /\ or_tow o = hnr_pvt_i_tow h /\
    or_roll o = 10 * nav_att_roll m /\ or_pitch o = 10 * nav_att_pitch m /\ or_yaw o = 10 * hnr_pvt_heading_vehicle h /\
    decimal32 (or_racc o) (nav_att_acc_roll m) /\ decimal32 (or_pacc o) (nav_att_acc_pitch m) /\ decimal32 (or_yacc o) (hnr_pvt_heading_acc h) /\
    exists g0 ss0 out1, run g ss es = Some (g0, ss0, out1) /\ or_flags o = if uses_ins (pv_fix g0) then 1 else 0.
Proof.
  intros g ss es m r g1 ss1 out k h r2 es2 R FM FH N ON.
  change ((k, EFrame (encode_nav_att m ++ r)) :: es2 ++ [(k, EFrame (encode_hnr_pvt h ++ r2))]) with (((k, EFrame (encode_nav_att m ++ r)) :: es2) ++ [(k, EFrame (encode_hnr_pvt h ++ r2))]) in R.
  rewrite app_assoc in R. apply proc_app in R. destruct R as (g2 & ss2 & o1 & o2 & R1 & R2 & ->).
  destruct (proc_keeps mw k _ _ _ _ _ _ R1) as (_ & _ & HN). rewrite ON in HN.
  apply proc_app in R1. destruct R1 as (g3 & ss3 & p1 & p2 & R1 & R3 & ->).
  cbn [uproc uev_step] in R3. rewrite (step_att mw g3 (ss3 k) m r FM) in R3. unfold fill_orient in R3.
  unfold times10 in R3. destruct (s32_ok (10 * nav_att_roll m)); [|discriminate]. destruct (s32_ok (10 * nav_att_pitch m)); [|discriminate]. destruct (s32_ok (10 * nav_att_heading m)); [|discriminate].
  match type of R3 with match run ?gg ?sss es2 with _ => _ end = _ => destruct (run gg sss es2) as [[[g4 ss4] o4]|] eqn:R4; [|discriminate] end. injection R3 as <- <- <-.
  destruct (proc_keeps mw k _ _ _ _ _ _ R4) as (_ & HO & _). specialize (HO N). rewrite Z.eqb_refl in HO. cbn [ui_orient] in HO.
  cbn [uproc uev_step] in R2. rewrite (step_hnr mw _ _ h r2 FH) in R2.
  unfold handle_hnr_pvt, times10 in R2. destruct (s32_ok _); [|discriminate]. rewrite HN, HO in R2. cbn [map app] in R2. injection R2 as _ _ <-.
  eexists. eexists. eexists. split; [reflexivity|]. cbn [or_tow or_roll or_pitch or_yaw or_racc or_pacc or_yacc or_flags].
  split; [reflexivity|]. split; [reflexivity|]. split; [reflexivity|]. split; [reflexivity|]. split; [apply acc_val; fitb FM|]. split; [apply acc_val; fitb FM|]. split; [apply acc_val; fitb FH|].
  exists g3, ss3, p1. split; [exact R1|]. reflexivity.
Qed.
(** a NAV-VELECEF is sent as one ECEF velocity in mm/s, same time of week, number of satellites of the last NAV-PVT (partly: accuracy and mode are not the receiver's, see below) *)
Theorem C62_velocity_partial : forall g s m r, nav_velecef_fits m -> Z.abs (nav_velecef_ecefVX m) <= 214748364 -> Z.abs (nav_velecef_ecefVY m) <= 214748364 -> Z.abs (nav_velecef_ecefVZ m) <= 214748364 ->
  exists acc fl, step g s (encode_nav_velecef m ++ r) =
    Some (g, s, [UVel (nav_velecef_i_tow m) (10 * nav_velecef_ecefVX m) (10 * nav_velecef_ecefVY m) (10 * nav_velecef_ecefVZ m) acc (pv_nsats g) fl]) /\
    (nav_velecef_speed_acc m < 65536 -> acc = nav_velecef_speed_acc m) /\ (fl = 8 \/ fl = 13) /\ (fl = 8 <-> pv_fix g <= 0).
Proof.
  intros g s m r F X Y Z. rewrite (step_vel mw g s m r F). unfold fill_vel. rewrite !times10_ok by assumption. eexists. eexists. split; [reflexivity|].
  split; [intros L; apply Z.mod_small; split; [fitb F|exact L]|]. destruct (Z.ltb_spec 0 (pv_fix g)); cbn; split; auto; split; intros; try lia; discriminate.
Qed.
(** exactly one source of positions and attitudes: NAV with high rate off, HNR with high rate on *)
Theorem C62_one_source : forall g s m a h r g1 s1 out,
  (nav_pvt_fits m -> ui_hnr s = true -> step g s (encode_nav_pvt m ++ r) = Some (g1, s1, out) -> out = []) /\
  (nav_att_fits a -> ui_hnr s = true -> step g s (encode_nav_att a ++ r) = Some (g1, s1, out) -> out = []) /\
  (hnr_pvt_fits h -> ui_hnr s = false -> step g s (encode_hnr_pvt h ++ r) = Some (g1, s1, out) -> out = []).
Proof.
  intros. split; [|split].
  - intros F H. rewrite (step_pvt mw g s m r F), H. congruence.
  - intros F H. rewrite (step_att mw g s a r F), H. destruct (fill_orient g a); congruence.
  - intros F H. rewrite (step_hnr mw g s h r F). unfold handle_hnr_pvt. rewrite H. destruct (times10 _); congruence.
Qed.
Definition ex_pvt (ft fl n : Z) : nav_pvt := mk_nav_pvt 1 7 92 345600000 2020 1 2 3 4 5 7 20 0 ft fl 0 n (-1222946373) 377577013 25400 50000 1200 1800 10 20 30 40 0 50 60 150 0 [0; 0; 0; 0; 0] 0 0 0.
Lemma ex_pvt_fits ft fl n : 0 <= ft < 256 -> 0 <= fl < 256 -> 0 <= n < 256 -> nav_pvt_fits (ex_pvt ft fl n).
Proof.
  intros A B C. unfold nav_pvt_fits, ex_pvt, ufits, sfits. repeat (match goal with |- _ /\ _ => split end); cbn -[Z.lt Z.le]; try reflexivity; try lia. all: repeat (constructor; try lia).
Qed.
Definition ex_hnr : hnr_pvt := mk_hnr_pvt 40 0 72 345600100 2020 1 2 3 4 5 7 0 3 1 [0; 0] (-1222946373) 377577013 25400 50000 40 40 0 18000000 1200 70000 50 60 [0; 0; 0; 0].
Lemma ex_hnr_fits : hnr_pvt_fits ex_hnr.
Proof. unfold hnr_pvt_fits, ex_hnr, ufits, sfits. repeat (match goal with |- _ /\ _ => split end); cbn -[Z.lt Z.le]; try reflexivity; try lia. all: repeat (constructor; try lia). Qed.
(** the hypotheses are met: converter 1 in high rate mode, a fixed RTK NAV-PVT, then a HNR-PVT *)
Example C62_met : exists g1 ss1 out, run pvt0 (fun _ => uinst0) ((1, EHnr true) :: (1, EFrame (encode_nav_pvt (ex_pvt 3 0x83 12) ++ [])) :: [] ++ [(1, EFrame (encode_hnr_pvt ex_hnr ++ []))]) = Some (g1, ss1, out) /\
  nav_pvt_fits (ex_pvt 3 0x83 12) /\ hnr_pvt_fits ex_hnr /\ pos_flags 3 0x83 4 /\ len out = 2.
Proof.
  cbn [app uproc uev_step]. rewrite (step_pvt mw _ _ _ [] (ex_pvt_fits 3 0x83 12 ltac:(lia) ltac:(lia) ltac:(lia))). rewrite (step_hnr mw _ _ _ [] ex_hnr_fits).
  unfold handle_hnr_pvt. rewrite times10_ok by (cbn; lia). cbn [Z.eqb Pos.eqb ui_hnr ui_orient uinst0]. eexists. eexists. eexists. split; [reflexivity|]. split; [apply ex_pvt_fits; lia|]. split; [apply ex_hnr_fits|].
  split; [|reflexivity]. exists 4. split; [apply pm_fixed; [lia|reflexivity|reflexivity]|reflexivity].
Qed.
(** refuted: "flags and satellites of a high rate position are those of the last NAV-PVT of the same converter": a second converter in the process, without a fix, makes the first one's positions invalid *)
Theorem C62_shared_refuted : exists es1 es2 lat lon h ha va g1 ss1 out o,
  run pvt0 (fun _ => uinst0) (es1 ++ (1, EFrame (encode_nav_pvt (ex_pvt 3 0x83 12))) :: es2 ++ [(1, EFrame (encode_hnr_pvt ex_hnr))]) = Some (g1, ss1, out) /\
  nav_pvt_fits (ex_pvt 3 0x83 12) /\ (forall e, In (1, e) es2 -> ~ is_frame 1 7 e) /\ pos_flags 3 0x83 4 /\
  out = [(1, UPos (hnr_pvt_i_tow ex_hnr) lat lon h ha va 0 0); (1, UOrient o)].
Proof.
  exists [(1, EHnr true); (2, EHnr true)], [(2, EFrame (encode_nav_pvt (ex_pvt 0 0 0)))].
  pose proof (fun g s => step_pvt mw g s (ex_pvt 3 0x83 12) [] (ex_pvt_fits 3 0x83 12 ltac:(lia) ltac:(lia) ltac:(lia))) as S1.
  pose proof (fun g s => step_pvt mw g s (ex_pvt 0 0 0) [] (ex_pvt_fits 0 0 0 ltac:(lia) ltac:(lia) ltac:(lia))) as S2.
  pose proof (fun g s => step_hnr mw g s ex_hnr [] ex_hnr_fits) as S3. rewrite app_nil_r in S3. setoid_rewrite app_nil_r in S1. setoid_rewrite app_nil_r in S2.
  cbn [app uproc uev_step]. rewrite S1, S2, S3. unfold handle_hnr_pvt. rewrite times10_ok by (cbn; lia). cbn [Z.eqb Pos.eqb ui_hnr ui_orient uinst0 map app].
  do 9 eexists. split; [reflexivity|]. split; [apply ex_pvt_fits; lia|]. split; [intros e [E|[]]; discriminate E|].
  split; [|reflexivity]. exists 4. split; [exact (pm_fixed 3 0x83 ltac:(lia) eq_refl eq_refl)|reflexivity].
Qed.
(** refuted: "the accuracy of the velocity is in mm/s, like the velocity": 65540 cm/s is sent as 4 *)
Theorem C62_velocity_accuracy_refuted : exists m, nav_velecef_fits m /\ nav_velecef_speed_acc m = 65540 /\
  forall g s, exists fl, step g s (encode_nav_velecef m) = Some (g, s, [UVel 345600000 100 200 300 4 (pv_nsats g) fl]).
Proof.
  set (m := mk_nav_velecef 1 17 20 345600000 10 20 30 65540). assert (F : nav_velecef_fits m).
  { unfold nav_velecef_fits, ufits, sfits. cbn. lia. }
  exists m. split; [exact F|]. split; [reflexivity|]. intros g s. pose proof (step_vel mw g s m [] F) as S. rewrite app_nil_r in S. rewrite S. eexists. reflexivity.
Qed.
(** refuted: "the mode of the velocity is that of the position of the same epoch": after a fixed RTK position without inertial sensors (flags 4) the velocity says dead reckoning with INS (13) *)
Theorem C62_velocity_mode_refuted : exists m v g1 lat lon h ha va, nav_pvt_fits m /\ nav_velecef_fits v /\ nav_pvt_i_tow m = nav_velecef_i_tow v /\
  step pvt0 uinst0 (encode_nav_pvt m) = Some (g1, uinst0, [UPos (nav_pvt_i_tow m) lat lon h ha va 12 4]) /\
  step g1 uinst0 (encode_nav_velecef v) = Some (g1, uinst0, [UVel (nav_velecef_i_tow v) 100 200 300 5 12 13]).
Proof.
  set (v := mk_nav_velecef 1 17 20 345600000 10 20 30 5). assert (F : nav_velecef_fits v). { unfold nav_velecef_fits, ufits, sfits. cbn. lia. }
  pose proof (step_pvt mw pvt0 uinst0 (ex_pvt 3 0x83 12) [] (ex_pvt_fits 3 0x83 12 ltac:(lia) ltac:(lia) ltac:(lia))) as S1. rewrite app_nil_r in S1.
  pose proof (fun g s => step_vel mw g s v [] F) as S2. setoid_rewrite app_nil_r in S2.
  exists (ex_pvt 3 0x83 12), v. do 6 eexists. split; [apply ex_pvt_fits; lia|]. split; [exact F|]. split; [reflexivity|]. split; [exact S1|]. rewrite S2. reflexivity.
Qed.
(** refuted: "an invalid fix (gnssFixOK, flags bit 0, not set) is sent as invalid": it is sent as a single point position *)
Theorem C62_fix_ok_refuted : exists m, nav_pvt_fits m /\ Z.testbit (nav_pvt_flags m) 0 = false /\
  forall g, exists g1 lat lon h ha va, step g uinst0 (encode_nav_pvt m) = Some (g1, uinst0, [UPos (nav_pvt_i_tow m) lat lon h ha va 12 1]).
Proof.
  exists (ex_pvt 3 0 12). split; [apply ex_pvt_fits; lia|]. split; [reflexivity|]. intros g.
  pose proof (step_pvt mw g uinst0 (ex_pvt 3 0 12) [] (ex_pvt_fits 3 0 12 ltac:(lia) ltac:(lia) ltac:(lia))) as S1. rewrite app_nil_r in S1. rewrite S1. do 6 eexists. reflexivity.
Qed.

(** ** C63 *)
(** every NAV-SAT is sent as azimuth/elevation messages of at most 63 satellites and measurement state messages of at most 85; together they hold, in order, every satellite of the NAV-SAT once
    (partly: azimuths outside 0..510 degrees and strengths of 64 dB-Hz or more do not fit the SBP fields and wrap) *)
Theorem C63_satellites_partial : forall g s m r, nav_sat_fits m -> exists out, step g s (encode_nav_sat m ++ r) = Some (g, s, out) /\
  Forall sat_msg out /\
  Forall2 (fun d x => 0 <= ns_azim d <= 510 -> azel_says d x) (nst_data m) (azels out) /\
  Forall2 (fun d x => ns_cno d <= 63 -> state_says d x) (nst_data m) (states out).
Proof.
  intros g s m r F. rewrite (step_sat mw g s m r F). unfold handle_nav_sat.
  assert (T : take (Z.min (nst_num_svs m) NAV_DATA_MAX_COUNT) (nst_data m) = nst_data m).
  { destruct F as (_ & _ & _ & _ & _ & _ & _ & _ & L). unfold NAV_DATA_MAX_COUNT. rewrite <- L. apply take_all. lia. }
  rewrite T. assert (FD : Forall nav_sat_data_fits (nst_data m)) by apply F.
  destruct (sat_loop_spec (nst_data m) FD [] [] ltac:(cbn; lia) ltac:(cbn; lia)) as (out & xs & ys & E & M & X & Y & FX & FY). rewrite E. exists out. split; [reflexivity|]. split; [exact M|].
  rewrite X, Y. auto.
Qed.
Definition ex_sat (n : nat) : nav_sat := mk_nav_sat 1 0x35 1208 345600000 1 (Z.of_nat n) 0 (repeat (mk_nav_sat_data 0 7 40 30 271 0 0) n).
Lemma ex_sat_fits n : (n <= 100)%nat -> nav_sat_fits (ex_sat n).
Proof.
  intros N. unfold nav_sat_fits, ex_sat, ufits. cbn -[Z.lt Z.le repeat Z.min Z.of_nat Z.pow]. repeat split; try reflexivity; try lia.
  - apply Forall_forall. intros x I. apply repeat_spec in I. subst x. unfold nav_sat_data_fits, ufits, sfits. cbn. lia.
  - unfold len. rewrite repeat_length. lia.
Qed.
Example C63_met : nav_sat_fits (ex_sat 100) /\ len (nst_data (ex_sat 100)) = 100. Proof. split; [apply ex_sat_fits; lia|reflexivity]. Qed.
(** refuted: signal strengths of 64 dB-Hz and more wrap, satellites of systems SBP does not know are sent as code "invalid" *)
Theorem C63_cn0_refuted : forall g s, exists m sat c el az, nav_sat_fits m /\ nst_data m = [mk_nav_sat_data 0 7 64 30 271 0 0] /\
  step g s (encode_nav_sat m) = Some (g, s, [UAzEl [(sat, c, az, el)]; UMeas [(sat, c, 0)]]).
Proof.
  intros g s. set (m := mk_nav_sat 1 0x35 20 345600000 1 1 0 [mk_nav_sat_data 0 7 64 30 271 0 0]).
  assert (F : nav_sat_fits m). { unfold nav_sat_fits, m, ufits. cbn -[Z.lt Z.le]. repeat split; try reflexivity; try lia. constructor; [|constructor]. unfold nav_sat_data_fits, ufits, sfits. cbn. lia. }
  exists m. pose proof (step_sat mw g s m [] F) as S. rewrite app_nil_r in S.
  assert (E : handle_nav_sat m = Some [UAzEl [(7, GPS_L1CA, 136, 30)]; UMeas [(7, GPS_L1CA, 0)]]) by (vm_compute; reflexivity).
  rewrite E in S. do 4 eexists. split; [exact F|]. split; [reflexivity|exact S].
Qed.
Theorem C63_unknown_system_refuted : forall g s, exists m, nav_sat_fits m /\ nst_data m = [mk_nav_sat_data 4 7 40 30 271 0 0] /\
  step g s (encode_nav_sat m) = Some (g, s, [UAzEl [(7, CODE_INVALID, 136, 30)]; UMeas [(7, CODE_INVALID, 160)]]).
Proof.
  intros g s. set (m := mk_nav_sat 1 0x35 20 345600000 1 1 0 [mk_nav_sat_data 4 7 40 30 271 0 0]).
  assert (F : nav_sat_fits m). { unfold nav_sat_fits, m, ufits. cbn -[Z.lt Z.le]. repeat split; try reflexivity; try lia. constructor; [|constructor]. unfold nav_sat_data_fits, ufits, sfits. cbn. lia. }
  exists m. pose proof (step_sat mw g s m [] F) as S. rewrite app_nil_r in S.
  assert (E : handle_nav_sat m = Some [UAzEl [(7, CODE_INVALID, 136, 30)]; UMeas [(7, CODE_INVALID, 160)]]) by (vm_compute; reflexivity).
  rewrite E in S. split; [exact F|]. split; [reflexivity|exact S].
Qed.
(** a MON-HW frame is forwarded byte by byte if it fits (253 bytes), else dropped; no other frame is forwarded *)
Theorem C63_forward : forall g s f g1 s1 out, step g s f = Some (g1, s1, out) -> forall src pr p,
  In (UFwd src pr p) out <-> (exists r, f = 0x0A :: 9 :: r) /\ len f <= 253 /\ src = 0 /\ pr = 1 /\ p = f.
Proof.
  intros g s f g1 s1 out. unfold unav_step. destruct (Z.ltb_spec (len f) 2) as [L|L].
  { intros [= _ _ <-] src pr p. split; [intros []|]. intros ((r & ->) & _). rewrite !len_cons in L. pose proof (len_nonneg r). lia. }
  destruct f as [|c [|i r]]; try (cbn in L; lia). change (znth 0 0 (c :: i :: r)) with c. change (znth 0 1 (c :: i :: r)) with i. cbv zeta.
  assert (Q : forall o, (forall src pr p, ~ In (UFwd src pr p) o) -> ~ (c = 10 /\ i = 9) -> forall src pr p,
     In (UFwd src pr p) o <-> (exists r0, c :: i :: r = 0x0A :: 9 :: r0) /\ len (c :: i :: r) <= 253 /\ src = 0 /\ pr = 1 /\ p = c :: i :: r).
  { intros o A B src pr p. split; [intros I; exfalso; exact (A _ _ _ I)|]. intros ((r0 & E) & _). exfalso. apply B. injection E as -> -> _. auto. }
  destruct ((c =? 40) && (i =? 0)) eqn:E1.
  { apply Bool.andb_true_iff in E1. rewrite !Z.eqb_eq in E1. destruct E1 as [-> ->]. destruct (decode_hnr_pvt _) as [[m q]| | |]; try (intros [= _ _ <-]; apply Q; [intros ? ? ? []|lia]).
    unfold handle_hnr_pvt. destruct (times10 _); [|discriminate]. intros [= _ _ <-]. apply Q; [|lia]. intros src pr p I. destruct (ui_hnr s); [|exact I]. destruct I as [I|[I|[]]]; discriminate I. }
  destruct (Z.eqb_spec c 1) as [->|NC].
  { intros E. apply Q; [|lia]. revert E.
    destruct (i =? 5).
    { destruct (decode_nav_att _) as [[m q]| | |]; try (intros [= _ _ <-] ? ? ? []). destruct (fill_orient g m); [|discriminate]. intros [= _ _ <-] ? ? ? I. destruct (ui_hnr s); [exact I|]. destruct I as [I|[]]; discriminate I. }
    destruct (i =? 7).
    { destruct (decode_nav_pvt _) as [[m q]| | |]; try (intros [= _ _ <-] ? ? ? []). unfold fill_pos. intros [= _ _ <-] ? ? ? I. destruct (ui_hnr s); [exact I|]. destruct I as [I|[]]; discriminate I. }
    destruct (i =? 17).
    { destruct (decode_nav_velecef _) as [[m q]| | |]; try (intros [= _ _ <-] ? ? ? []). unfold fill_vel. destruct (times10 _); [|discriminate]. destruct (times10 _); [|discriminate]. destruct (times10 _); [|discriminate].
      intros [= _ _ <-] ? ? ? I. destruct I as [I|[]]; discriminate I. }
    destruct (i =? 53).
    { destruct (decode_nav_sat _) as [[m q]| | |]; try (intros [= _ _ <-] ? ? ? []). destruct (handle_nav_sat m) as [o|] eqn:H; [|discriminate]. intros [= _ _ <-] ? ? ? I. unfold handle_nav_sat in H.
      exact (sat_loop_fwd _ _ _ _ H _ _ _ I). }
    destruct (i =? 3); [|intros [= _ _ <-] ? ? ? []].
    destruct (decode_nav_status _) as [[m q]| | |]; try (intros [= _ _ <-] ? ? ? []). destruct (handle_nav_status mw s m) as [[s2 o]|] eqn:H; [|discriminate]. intros [= _ _ <-] ? ? ? I.
    destruct (status_out mw _ _ _ _ H) as [->|(w & ms & ->)]; [exact I|]. destruct I as [I|[]]; discriminate I. }
  destruct ((c =? 2) && (i =? 21)) eqn:E2.
  { apply Bool.andb_true_iff in E2. rewrite !Z.eqb_eq in E2. destruct E2 as [-> ->]. destruct (decode_rawx _) as [[m q]| | |]; intros [= _ _ <-]; (apply Q; [intros ? ? ? []|lia]). }
  destruct ((c =? 10) && (i =? 9)) eqn:E3.
  - apply Bool.andb_true_iff in E3. rewrite !Z.eqb_eq in E3. destruct E3 as [-> ->]. unfold handle_mon_hw, FWD_MAX. intros [= _ _ <-] src pr p. rewrite !len_cons. pose proof (len_nonneg r).
    destruct (Z.ltb_spec 253 (1 + (1 + len r))); [split; [intros []|lia]|]. destruct (Z.ltb_spec 0 (1 + (1 + len r))); [|lia]. split.
    + intros [I|[]]. injection I as <- <- <-. split; [exists r; reflexivity|]. split; [lia|auto].
    + intros (_ & _ & -> & -> & ->). left. reflexivity.
  - intros [= _ _ <-]. apply Q; [intros ? ? ? []|]. intros [-> ->]. discriminate E3.
Qed.
Example C63_forward_met : step pvt0 uinst0 [0x0A; 9; 1; 0; 77] = Some (pvt0, uinst0, [UFwd 0 1 [0x0A; 9; 1; 0; 77]]). Proof. reflexivity. Qed.

(** ** C64 *)
(** in any history in which the converter was told by a NAV-STATUS that week and time of week are known ([m0]), later got observations ([rx], the last), and has an inertial time ([imu]), a NAV-STATUS with
    a good fix and time is answered with one time offset: the GNSS time of the NAV-STATUS minus its local time, each in the week that brings it next to the last observation and inertial time *)
Theorem C64_offset : forall g ss es1 es2 es3 k m0 r0 rx r1 m r2 imu g1 ss1 out1,
  (forall t ref w, mw t ref = Some w -> (Rabs (IZR w * 604800 + dR t - (IZR (fst ref) * 604800 + dR (snd ref))) <= 302400)%R) ->
  (forall t ref, exists w, mw t ref = Some w) ->
  run g ss (es1 ++ (k, EFrame (encode_nav_status m0 ++ r0)) :: es2 ++ (k, EFrame (encode_rawx rx ++ r1)) :: es3) = Some (g1, ss1, out1) ->
  nav_status_fits m0 -> time_known m0 -> rawx_fits rx -> 1 <= rx_num_meas rx -> 1 <= rx_rcv_wn rx < 32000 -> gps_tow (dofbits (rx_rcv_tow rx)) ->
  (forall e, In (k, e) es3 -> ~ is_frame 2 0x15 e) ->
  last_imu k (es1 ++ (k, EFrame (encode_nav_status m0 ++ r0)) :: es2 ++ (k, EFrame (encode_rawx rx ++ r1)) :: es3) (ui_imu (ss k)) = Some imu -> 0 <= fst imu < 32000 -> gps_tow (snd imu) ->
  nav_status_fits m -> time_known m -> fix_known m ->
  exists s1 weeks ms wg tg wl tl, step g1 (ss1 k) (encode_nav_status m ++ r2) = Some (g1, s1, [UOffset weeks ms 0 0]) /\
    weeks * 604800000 + ms = (wg * 604800000 + tg) - (wl * 604800000 + tl) /\ Z.abs ms <= 604800001 /\
    tg mod 604800000 = nav_status_i_tow m mod 604800000 /\ next_to wg tg (rx_rcv_wn rx, dofbits (rx_rcv_tow rx)) /\
    tl mod 604800000 = nav_status_msss m mod 604800000 /\ next_to wl tl imu.
Proof.
  intros g ss es1 es2 es3 k m0 r0 rx r1 m r2 imu g1 ss1 out1 MW1 MW2 R FM0 TK0 FX NM WN TOW NX LI IW IT FM TK FK.
  destruct (status_history mw g ss es1 es2 es3 k m0 r0 rx r1 g1 ss1 out1 R FM0 TK0 FX NM WN NX) as (OBS & IMU). rewrite LI in IMU.
  rewrite (step_status mw g1 (ss1 k) m r2 FM). unfold handle_nav_status. cbv zeta. rewrite (proj2 (time_good_spec m) TK), (proj2 (fix_good_spec m) FK). cbn [andb ui_obs ui_imu]. rewrite OBS.
  rewrite valid_spec by (cbn [fst snd]; (lia || exact TOW)). cbn [negb]. rewrite IMU.
  assert (BI : 0 <= nav_status_i_tow m < 2 ^ 32) by fitb FM. assert (BM : 0 <= nav_status_msss m < 2 ^ 32) by fitb FM.
  destruct (offset_spec _ _ BI BM) as (ja & jb & Q & EA & EB & AB). cbv zeta in Q, EA, EB.
  set (ta := norm_week (dmul d_milli (dofZ (nav_status_i_tow m)))) in *. set (tb := norm_week (dmul d_milli (dofZ (nav_status_msss m)))) in *.
  destruct (MW2 ta (rx_rcv_wn rx, dofbits (rx_rcv_tow rx))) as [wg WG]. rewrite WG. rewrite valid_spec by (assumption || lia). cbn [negb].
  destruct (MW2 tb imu) as [wl WL]. rewrite WL, Q. pose proof (MW1 _ _ _ WG) as DG. pose proof (MW1 _ _ _ WL) as DL. cbn [fst snd] in DG.
  set (A := nav_status_i_tow m - 604800000 * ja) in *. set (B := nav_status_msss m - 604800000 * jb) in *.
  unfold s32_ok. destruct (Z.leb_spec (- 2 ^ 31) (A - B)); [|lia]. destruct (Z.ltb_spec (A - B) (2 ^ 31)); [|lia]. cbn [andb].
  assert (NG : next_to wg A (rx_rcv_wn rx, dofbits (rx_rcv_tow rx))).
  { unfold next_to. cbn [fst snd]. rewrite plus_IZR, mult_IZR. apply Rabs_le_inv in DG, EA. apply Rabs_le. lra. }
  assert (NL : next_to wl B imu).
  { unfold next_to. rewrite plus_IZR, mult_IZR. apply Rabs_le_inv in DL, EB. apply Rabs_le. lra. }
  assert (WR : - 2 <= wg <= 32002). { apply (week_range wg (rx_rcv_wn rx) _ _ DG); [lia|exact TOW|]. exact (proj1 (proj2 (tow_spec _ BI))). }
  assert (LR : - 2 <= wl <= 32002). { apply (week_range wl (fst imu) _ _ DL); [lia|exact IT|]. exact (proj1 (proj2 (tow_spec _ BM))). }
  exists (mkuinst (ui_hnr (ss1 k)) (ui_orient (ss1 k)) (ui_obs (ss1 k)) (ui_imu (ss1 k)) true), (wg - wl), (A - B), wg, A, wl, B.
  rewrite s16_small by lia. split; [rewrite OBS, IMU; reflexivity|]. split; [lia|]. split; [exact AB|].
  split; [unfold A; replace (nav_status_i_tow m - 604800000 * ja) with (nav_status_i_tow m + (- ja) * 604800000) by lia; apply Z_mod_plus_full|]. split; [exact NG|].
  split; [unfold B; replace (nav_status_msss m - 604800000 * jb) with (nav_status_msss m + (- jb) * 604800000) by lia; apply Z_mod_plus_full|]. exact NL.
Qed.
(** and only then: no offset without a good fix and time, a known week, observations and an inertial time *)
Theorem C64_only : forall g s f g1 s1 out w ms us fl, step g s f = Some (g1, s1, out) -> In (UOffset w ms us fl) out ->
  exists m r obs imu, decode_nav_status f = Ok (m, r) /\ fix_known m /\ time_known m /\ ui_obs s = Some obs /\ ui_imu s = Some imu /\ us = 0 /\ fl = 0 /\ out = [UOffset w ms 0 0].
Proof. exact (offset_only mw). Qed.
(** the observation time is unknown until a NAV-STATUS says that the week is known: no offset before *)
Theorem C64_week_unknown : forall es g ss g1 ss1 out k w ms us fl, run g ss es = Some (g1, ss1, out) -> ui_week (ss k) = false -> ui_obs (ss k) = None ->
  (forall f m r, In (k, EFrame f) es -> decode_nav_status f = Ok (m, r) -> ~ time_known m) -> ~ In (k, UOffset w ms us fl) out.
Proof. intros es g ss g1 ss1 out k w ms us fl R W O N. exact (proj2 (proj2 (week_unknown mw es g ss g1 ss1 out k R W O N)) w ms us fl). Qed.
End P.
(** the hypotheses are met: a nearest week exists, and the history NAV-STATUS, RAWX, inertial time does it *)
Definition ex_status : nav_status := mk_nav_status 1 3 16 345600000 3 0x0D 0 0 20000 5000123.
Definition ex_rawx : rawx := mk_rawx 2 0x15 48 0x4115180000000000 2086 18 1 0 1 [0; 0] [mk_rawx_meas 0 0 0 0 7 0 0 100 40 1 1 1 1 0].
Lemma ex_status_fits : nav_status_fits ex_status.
Proof. unfold nav_status_fits, ex_status, ufits. cbn -[Z.lt Z.le]. lia. Qed.
Lemma ex_rawx_fits : rawx_fits ex_rawx.
Proof.
  unfold rawx_fits, ex_rawx, ufits, sfits. cbn -[Z.lt Z.le rawx_meas_fits]. repeat (match goal with |- _ /\ _ => split end); try reflexivity; try lia.
  - repeat (constructor; try lia).
  - constructor; [|constructor]. unfold rawx_meas_fits, ufits, sfits. cbn -[Z.lt Z.le]. repeat (match goal with |- _ /\ _ => split end); try reflexivity; lia.
Qed.
Lemma ex_tow : gps_tow (dofbits (rx_rcv_tow ex_rawx)).
Proof.
  assert (V : val (dofbits 0x4115180000000000) (345600 / 1) (8 * u53)) by cval.
  destruct V as (F & e & E & X). split; [exact F|]. change (dofbits (rx_rcv_tow ex_rawx)) with (dofbits 0x4115180000000000). rewrite X. apply Rabs_le_inv in E. unfold u53 in E. lra.
Qed.
Example C64_met : exists mw : dbl -> Z * dbl -> option Z,
  (forall t ref w, mw t ref = Some w -> (Rabs (IZR w * 604800 + dR t - (IZR (fst ref) * 604800 + dR (snd ref))) <= 302400)%R) /\
  (forall t ref, exists w, mw t ref = Some w) /\
  (exists g1 ss1, uproc mw pvt0 (fun _ => uinst0) ([] ++ (1, EFrame (encode_nav_status ex_status ++ [])) :: [] ++ (1, EFrame (encode_rawx ex_rawx ++ [])) :: [(1, EImu (0, dofZ 5000))]) = Some (g1, ss1, [])) /\
  nav_status_fits ex_status /\ time_known ex_status /\ fix_known ex_status /\ rawx_fits ex_rawx /\ gps_tow (dofbits (rx_rcv_tow ex_rawx)) /\ gps_tow (dofZ 5000).
Proof.
  exists (fun t ref => Some (fst ref + ZnearestE ((dR (snd ref) - dR t) / 604800))). split; [|split; [|split]].
  - intros t ref w [= <-]. rewrite plus_IZR. pose proof (Znearest_half (fun x => negb (Z.even x)) ((dR (snd ref) - dR t) / 604800)) as H. apply Rabs_le_inv in H. apply Rabs_le. lra.
  - intros t ref. eexists. reflexivity.
  - cbn [app uproc uev_step]. rewrite (step_status _ _ _ _ [] ex_status_fits). unfold handle_nav_status. cbn [ui_obs uinst0]. change (time_good ex_status) with true. change (fix_good ex_status) with true. cbn [andb ui_obs].
    rewrite (step_rawx _ _ _ _ [] ex_rawx_fits). eexists. eexists. reflexivity.
  - split; [exact ex_status_fits|]. split; [split; reflexivity|]. split; [split; [left|]; reflexivity|]. split; [exact ex_rawx_fits|]. split.
    + exact ex_tow.
    + destruct (dofZ_exact 5000 ltac:(lia)) as [F V]. split; [exact F|]. rewrite V. lra.
Qed.
Print Assumptions C62_position.
Print Assumptions C62_hnr_position_partial.
Print Assumptions C62_attitude_partial.
Print Assumptions C62_hnr_attitude_partial.
Print Assumptions C62_velocity_partial.
Print Assumptions C62_one_source.
Print Assumptions C62_shared_refuted.
Print Assumptions C62_velocity_accuracy_refuted.
Print Assumptions C62_velocity_mode_refuted.
Print Assumptions C62_fix_ok_refuted.
Print Assumptions C63_satellites_partial.
Print Assumptions C63_cn0_refuted.
Print Assumptions C63_unknown_system_refuted.
Print Assumptions C63_forward.
Print Assumptions C64_offset.
Print Assumptions C64_only.
Print Assumptions C64_week_unknown.
