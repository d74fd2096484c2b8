(** The fixed-layout UBX messages: each decoder and encoder form a codec. *)
From Verif Require Import Base Bytestream_model Bytestream_proofs UbxMsg_model.

Ltac finish_bwd := match goal with H : bret ?m ?l = Ok (?x, ?r) |- _ =>
  unfold bret in H; let E1 := fresh in let E2 := fresh in
  assert (E1 : x = m) by congruence; assert (E2 : l = r) by congruence; rewrite E1, E2; clear H E1 E2 end.
Ltac conj := repeat match goal with |- _ /\ _ => split end; assumption.
Lemma hnr_pvt_codec : codec decode_hnr_pvt encode_hnr_pvt hnr_pvt_fits.
Proof.
  split; [|split].
  - intros m r H. unfold hnr_pvt_fits in H. all_ands. unfold encode_hnr_pvt, decode_hnr_pvt. rewrite <- !app_assoc. fwd. destruct m; reflexivity.
  - intros l m r Hl H. unfold decode_hnr_pvt in H. repeat bwd1. finish_bwd. split.
    + unfold encode_hnr_pvt. cbn [hnr_pvt_class_id hnr_pvt_msg_id hnr_pvt_length hnr_pvt_i_tow hnr_pvt_year hnr_pvt_month hnr_pvt_day hnr_pvt_hour hnr_pvt_min hnr_pvt_sec hnr_pvt_valid hnr_pvt_nano hnr_pvt_fix_type hnr_pvt_flags hnr_pvt_reserved1 hnr_pvt_lon hnr_pvt_lat hnr_pvt_height hnr_pvt_height_mean_sea_level hnr_pvt_ground_speed hnr_pvt_speed hnr_pvt_heading_of_motion hnr_pvt_heading_vehicle hnr_pvt_horizontal_accuracy hnr_pvt_vertical_accuracy hnr_pvt_speed_acc hnr_pvt_heading_acc hnr_pvt_reserved2]. rewrite ?take_all by lia. rewrite <- !app_assoc. reflexivity.
    + unfold hnr_pvt_fits. cbn [hnr_pvt_class_id hnr_pvt_msg_id hnr_pvt_length hnr_pvt_i_tow hnr_pvt_year hnr_pvt_month hnr_pvt_day hnr_pvt_hour hnr_pvt_min hnr_pvt_sec hnr_pvt_valid hnr_pvt_nano hnr_pvt_fix_type hnr_pvt_flags hnr_pvt_reserved1 hnr_pvt_lon hnr_pvt_lat hnr_pvt_height hnr_pvt_height_mean_sea_level hnr_pvt_ground_speed hnr_pvt_speed hnr_pvt_heading_of_motion hnr_pvt_heading_vehicle hnr_pvt_horizontal_accuracy hnr_pvt_vertical_accuracy hnr_pvt_speed_acc hnr_pvt_heading_acc hnr_pvt_reserved2]. conj.
  - intros l Hl. unfold decode_hnr_pvt. repeat nub1.
Qed.
Lemma nav_att_codec : codec decode_nav_att encode_nav_att nav_att_fits.
Proof.
  split; [|split].
  - intros m r H. unfold nav_att_fits in H. all_ands. unfold encode_nav_att, decode_nav_att. rewrite <- !app_assoc. fwd. destruct m; reflexivity.
  - intros l m r Hl H. unfold decode_nav_att in H. repeat bwd1. finish_bwd. split.
    + unfold encode_nav_att. cbn [nav_att_class_id nav_att_msg_id nav_att_length nav_att_i_tow nav_att_version nav_att_reserved nav_att_roll nav_att_pitch nav_att_heading nav_att_acc_roll nav_att_acc_pitch nav_att_acc_heading]. rewrite ?take_all by lia. rewrite <- !app_assoc. reflexivity.
    + unfold nav_att_fits. cbn [nav_att_class_id nav_att_msg_id nav_att_length nav_att_i_tow nav_att_version nav_att_reserved nav_att_roll nav_att_pitch nav_att_heading nav_att_acc_roll nav_att_acc_pitch nav_att_acc_heading]. conj.
  - intros l Hl. unfold decode_nav_att. repeat nub1.
Qed.
Lemma nav_clock_codec : codec decode_nav_clock encode_nav_clock nav_clock_fits.
Proof.
  split; [|split].
  - intros m r H. unfold nav_clock_fits in H. all_ands. unfold encode_nav_clock, decode_nav_clock. rewrite <- !app_assoc. fwd. destruct m; reflexivity.
  - intros l m r Hl H. unfold decode_nav_clock in H. repeat bwd1. finish_bwd. split.
    + unfold encode_nav_clock. cbn [nav_clock_class_id nav_clock_msg_id nav_clock_length nav_clock_i_tow nav_clock_clk_bias nav_clock_clk_drift nav_clock_time_acc nav_clock_freq_acc]. rewrite ?take_all by lia. rewrite <- !app_assoc. reflexivity.
    + unfold nav_clock_fits. cbn [nav_clock_class_id nav_clock_msg_id nav_clock_length nav_clock_i_tow nav_clock_clk_bias nav_clock_clk_drift nav_clock_time_acc nav_clock_freq_acc]. conj.
  - intros l Hl. unfold decode_nav_clock. repeat nub1.
Qed.
Lemma nav_pvt_codec : codec decode_nav_pvt encode_nav_pvt nav_pvt_fits.
Proof.
  split; [|split].
  - intros m r H. unfold nav_pvt_fits in H. all_ands. unfold encode_nav_pvt, decode_nav_pvt. rewrite <- !app_assoc. fwd. destruct m; reflexivity.
  - intros l m r Hl H. unfold decode_nav_pvt in H. repeat bwd1. finish_bwd. split.
    + unfold encode_nav_pvt. cbn [nav_pvt_class_id nav_pvt_msg_id nav_pvt_length nav_pvt_i_tow nav_pvt_year nav_pvt_month nav_pvt_day nav_pvt_hour nav_pvt_min nav_pvt_sec nav_pvt_valid nav_pvt_time_acc nav_pvt_nano nav_pvt_fix_type nav_pvt_flags nav_pvt_flags2 nav_pvt_num_sats nav_pvt_lon nav_pvt_lat nav_pvt_height nav_pvt_height_mean_sea_level nav_pvt_horizontal_accuracy nav_pvt_vertical_accuracy nav_pvt_vel_north nav_pvt_vel_east nav_pvt_vel_down nav_pvt_ground_speed nav_pvt_heading_of_motion nav_pvt_speed_acc nav_pvt_heading_acc nav_pvt_PDOP nav_pvt_flags3 nav_pvt_reserved1 nav_pvt_heading_vehicle nav_pvt_magnetic_declination nav_pvt_magnetic_declination_accuracy]. rewrite ?take_all by lia. rewrite <- !app_assoc. reflexivity.
    + unfold nav_pvt_fits. cbn [nav_pvt_class_id nav_pvt_msg_id nav_pvt_length nav_pvt_i_tow nav_pvt_year nav_pvt_month nav_pvt_day nav_pvt_hour nav_pvt_min nav_pvt_sec nav_pvt_valid nav_pvt_time_acc nav_pvt_nano nav_pvt_fix_type nav_pvt_flags nav_pvt_flags2 nav_pvt_num_sats nav_pvt_lon nav_pvt_lat nav_pvt_height nav_pvt_height_mean_sea_level nav_pvt_horizontal_accuracy nav_pvt_vertical_accuracy nav_pvt_vel_north nav_pvt_vel_east nav_pvt_vel_down nav_pvt_ground_speed nav_pvt_heading_of_motion nav_pvt_speed_acc nav_pvt_heading_acc nav_pvt_PDOP nav_pvt_flags3 nav_pvt_reserved1 nav_pvt_heading_vehicle nav_pvt_magnetic_declination nav_pvt_magnetic_declination_accuracy]. conj.
  - intros l Hl. unfold decode_nav_pvt. repeat nub1.
Qed.
Lemma nav_velecef_codec : codec decode_nav_velecef encode_nav_velecef nav_velecef_fits.
Proof.
  split; [|split].
  - intros m r H. unfold nav_velecef_fits in H. all_ands. unfold encode_nav_velecef, decode_nav_velecef. rewrite <- !app_assoc. fwd. destruct m; reflexivity.
  - intros l m r Hl H. unfold decode_nav_velecef in H. repeat bwd1. finish_bwd. split.
    + unfold encode_nav_velecef. cbn [nav_velecef_class_id nav_velecef_msg_id nav_velecef_length nav_velecef_i_tow nav_velecef_ecefVX nav_velecef_ecefVY nav_velecef_ecefVZ nav_velecef_speed_acc]. rewrite ?take_all by lia. rewrite <- !app_assoc. reflexivity.
    + unfold nav_velecef_fits. cbn [nav_velecef_class_id nav_velecef_msg_id nav_velecef_length nav_velecef_i_tow nav_velecef_ecefVX nav_velecef_ecefVY nav_velecef_ecefVZ nav_velecef_speed_acc]. conj.
  - intros l Hl. unfold decode_nav_velecef. repeat nub1.
Qed.
Lemma nav_status_codec : codec decode_nav_status encode_nav_status nav_status_fits.
Proof.
  split; [|split].
  - intros m r H. unfold nav_status_fits in H. all_ands. unfold encode_nav_status, decode_nav_status. rewrite <- !app_assoc. fwd. destruct m; reflexivity.
  - intros l m r Hl H. unfold decode_nav_status in H. repeat bwd1. finish_bwd. split.
    + unfold encode_nav_status. cbn [nav_status_class_id nav_status_msg_id nav_status_length nav_status_i_tow nav_status_fix_type nav_status_status_flags nav_status_fix_status nav_status_status_flags_ext nav_status_ttff_ms nav_status_msss]. rewrite ?take_all by lia. rewrite <- !app_assoc. reflexivity.
    + unfold nav_status_fits. cbn [nav_status_class_id nav_status_msg_id nav_status_length nav_status_i_tow nav_status_fix_type nav_status_status_flags nav_status_fix_status nav_status_status_flags_ext nav_status_ttff_ms nav_status_msss]. conj.
  - intros l Hl. unfold decode_nav_status. repeat nub1.
Qed.
Lemma mga_gps_eph_codec : codec decode_mga_gps_eph encode_mga_gps_eph mga_gps_eph_fits.
Proof.
  split; [|split].
  - intros m r H. unfold mga_gps_eph_fits in H. all_ands. unfold encode_mga_gps_eph, decode_mga_gps_eph. rewrite <- !app_assoc. fwd. destruct m; reflexivity.
  - intros l m r Hl H. unfold decode_mga_gps_eph in H. repeat bwd1. finish_bwd. split.
    + unfold encode_mga_gps_eph. cbn [mga_gps_eph_class_id mga_gps_eph_msg_id mga_gps_eph_length mga_gps_eph_msg_type mga_gps_eph_version mga_gps_eph_sat_id mga_gps_eph_reserved1 mga_gps_eph_fit_interval mga_gps_eph_ura_index mga_gps_eph_sat_health mga_gps_eph_tgd mga_gps_eph_iodc mga_gps_eph_toc mga_gps_eph_reserved2 mga_gps_eph_af2 mga_gps_eph_af1 mga_gps_eph_af0 mga_gps_eph_crs mga_gps_eph_delta_N mga_gps_eph_m0 mga_gps_eph_cuc mga_gps_eph_cus mga_gps_eph_e mga_gps_eph_sqrt_A mga_gps_eph_toe mga_gps_eph_cic mga_gps_eph_omega0 mga_gps_eph_cis mga_gps_eph_crc mga_gps_eph_i0 mga_gps_eph_omega mga_gps_eph_omega_dot mga_gps_eph_i_dot mga_gps_eph_reserved3]. rewrite ?take_all by lia. rewrite <- !app_assoc. reflexivity.
    + unfold mga_gps_eph_fits. cbn [mga_gps_eph_class_id mga_gps_eph_msg_id mga_gps_eph_length mga_gps_eph_msg_type mga_gps_eph_version mga_gps_eph_sat_id mga_gps_eph_reserved1 mga_gps_eph_fit_interval mga_gps_eph_ura_index mga_gps_eph_sat_health mga_gps_eph_tgd mga_gps_eph_iodc mga_gps_eph_toc mga_gps_eph_reserved2 mga_gps_eph_af2 mga_gps_eph_af1 mga_gps_eph_af0 mga_gps_eph_crs mga_gps_eph_delta_N mga_gps_eph_m0 mga_gps_eph_cuc mga_gps_eph_cus mga_gps_eph_e mga_gps_eph_sqrt_A mga_gps_eph_toe mga_gps_eph_cic mga_gps_eph_omega0 mga_gps_eph_cis mga_gps_eph_crc mga_gps_eph_i0 mga_gps_eph_omega mga_gps_eph_omega_dot mga_gps_eph_i_dot mga_gps_eph_reserved3]. conj.
  - intros l Hl. unfold decode_mga_gps_eph. repeat nub1.
Qed.
Lemma esf_ins_codec : codec decode_esf_ins encode_esf_ins esf_ins_fits.
Proof.
  split; [|split].
  - intros m r H. unfold esf_ins_fits in H. all_ands. unfold encode_esf_ins, decode_esf_ins. rewrite <- !app_assoc. fwd. destruct m; reflexivity.
  - intros l m r Hl H. unfold decode_esf_ins in H. repeat bwd1. finish_bwd. split.
    + unfold encode_esf_ins. cbn [esf_ins_class_id esf_ins_msg_id esf_ins_length esf_ins_bitfield0 esf_ins_reserved1 esf_ins_i_tow esf_ins_x_ang_rate esf_ins_y_ang_rate esf_ins_z_ang_rate esf_ins_x_accel esf_ins_y_accel esf_ins_z_accel]. rewrite ?take_all by lia. rewrite <- !app_assoc. reflexivity.
    + unfold esf_ins_fits. cbn [esf_ins_class_id esf_ins_msg_id esf_ins_length esf_ins_bitfield0 esf_ins_reserved1 esf_ins_i_tow esf_ins_x_ang_rate esf_ins_y_ang_rate esf_ins_z_ang_rate esf_ins_x_accel esf_ins_y_accel esf_ins_z_accel]. conj.
  - intros l Hl. unfold decode_esf_ins. repeat nub1.
Qed.
