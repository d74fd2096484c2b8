(** GENERATED by tools/gen_ubx.py from c/libubx/include/ubx/ubx_messages.h, c/libubx/src/encode.c and c/libubx/src/decode.c
    (the cited lines of each); do not edit.  double and float fields are represented by their 64/32-bit patterns, which is what
    memcpy and swiftnav_bytestream_get_bytes copy. *)
From Verif Require Import Base Bytestream_model.

(** ubx_hnr_pvt: ubx_messages.h:58-87 *)
Record hnr_pvt := mk_hnr_pvt { hnr_pvt_class_id : Z; hnr_pvt_msg_id : Z; hnr_pvt_length : Z; hnr_pvt_i_tow : Z; hnr_pvt_year : Z; hnr_pvt_month : Z; hnr_pvt_day : Z; hnr_pvt_hour : Z; hnr_pvt_min : Z; hnr_pvt_sec : Z; hnr_pvt_valid : Z; hnr_pvt_nano : Z; hnr_pvt_fix_type : Z; hnr_pvt_flags : Z; hnr_pvt_reserved1 : list Z; hnr_pvt_lon : Z; hnr_pvt_lat : Z; hnr_pvt_height : Z; hnr_pvt_height_mean_sea_level : Z; hnr_pvt_ground_speed : Z; hnr_pvt_speed : Z; hnr_pvt_heading_of_motion : Z; hnr_pvt_heading_vehicle : Z; hnr_pvt_horizontal_accuracy : Z; hnr_pvt_vertical_accuracy : Z; hnr_pvt_speed_acc : Z; hnr_pvt_heading_acc : Z; hnr_pvt_reserved2 : list Z }.
(** ubx_encode_hnr_pvt: encode.c:70-138 *)
Definition encode_hnr_pvt (m : hnr_pvt) : list Z :=
  le 1 (hnr_pvt_class_id m) ++
  le 1 (hnr_pvt_msg_id m) ++
  le 2 (hnr_pvt_length m) ++
  le 4 (hnr_pvt_i_tow m) ++
  le 2 (hnr_pvt_year m) ++
  le 1 (hnr_pvt_month m) ++
  le 1 (hnr_pvt_day m) ++
  le 1 (hnr_pvt_hour m) ++
  le 1 (hnr_pvt_min m) ++
  le 1 (hnr_pvt_sec m) ++
  le 1 (hnr_pvt_valid m) ++
  le 4 (hnr_pvt_nano m) ++
  le 1 (hnr_pvt_fix_type m) ++
  le 1 (hnr_pvt_flags m) ++
  flat_map (le 1) (take 2 (hnr_pvt_reserved1 m)) ++
  le 4 (hnr_pvt_lon m) ++
  le 4 (hnr_pvt_lat m) ++
  le 4 (hnr_pvt_height m) ++
  le 4 (hnr_pvt_height_mean_sea_level m) ++
  le 4 (hnr_pvt_ground_speed m) ++
  le 4 (hnr_pvt_speed m) ++
  le 4 (hnr_pvt_heading_of_motion m) ++
  le 4 (hnr_pvt_heading_vehicle m) ++
  le 4 (hnr_pvt_horizontal_accuracy m) ++
  le 4 (hnr_pvt_vertical_accuracy m) ++
  le 4 (hnr_pvt_speed_acc m) ++
  le 4 (hnr_pvt_heading_acc m) ++
  flat_map (le 1) (take 4 (hnr_pvt_reserved2 m)).
(** ubx_decode_hnr_pvt_bytestream: decode.c:48-98 *)
Definition decode_hnr_pvt : bdec hnr_pvt :=
  class_id <~ getu 1 ;;
  msg_id <~ getu 1 ;;
  check (class_id =? 40) ;;;
  check (msg_id =? 0) ;;;
  length <~ getu 2 ;;
  i_tow <~ getu 4 ;;
  year <~ getu 2 ;;
  month <~ getu 1 ;;
  day <~ getu 1 ;;
  hour <~ getu 1 ;;
  min <~ getu 1 ;;
  sec <~ getu 1 ;;
  valid <~ getu 1 ;;
  nano <~ gets 4 ;;
  fix_type <~ getu 1 ;;
  flags <~ getu 1 ;;
  reserved1 <~ get_n 2 (getu 1) ;;
  lon <~ gets 4 ;;
  lat <~ gets 4 ;;
  height <~ gets 4 ;;
  height_mean_sea_level <~ gets 4 ;;
  ground_speed <~ gets 4 ;;
  speed <~ gets 4 ;;
  heading_of_motion <~ gets 4 ;;
  heading_vehicle <~ gets 4 ;;
  horizontal_accuracy <~ getu 4 ;;
  vertical_accuracy <~ getu 4 ;;
  speed_acc <~ getu 4 ;;
  heading_acc <~ getu 4 ;;
  reserved2 <~ get_n 4 (getu 1) ;;
  bret (mk_hnr_pvt class_id msg_id length i_tow year month day hour min sec valid nano fix_type flags reserved1 lon lat height height_mean_sea_level ground_speed speed heading_of_motion heading_vehicle horizontal_accuracy vertical_accuracy speed_acc heading_acc reserved2).
(** every field is representable in its C type and the message is of its type *)
Definition hnr_pvt_fits (m : hnr_pvt) : Prop :=
  hnr_pvt_class_id m = 40 /\ hnr_pvt_msg_id m = 0 /\
  ufits 1 (hnr_pvt_class_id m) /\
  ufits 1 (hnr_pvt_msg_id m) /\
  ufits 2 (hnr_pvt_length m) /\
  ufits 4 (hnr_pvt_i_tow m) /\
  ufits 2 (hnr_pvt_year m) /\
  ufits 1 (hnr_pvt_month m) /\
  ufits 1 (hnr_pvt_day m) /\
  ufits 1 (hnr_pvt_hour m) /\
  ufits 1 (hnr_pvt_min m) /\
  ufits 1 (hnr_pvt_sec m) /\
  ufits 1 (hnr_pvt_valid m) /\
  sfits 4 (hnr_pvt_nano m) /\
  ufits 1 (hnr_pvt_fix_type m) /\
  ufits 1 (hnr_pvt_flags m) /\
  Forall (ufits 1) (hnr_pvt_reserved1 m) /\ len (hnr_pvt_reserved1 m) = 2 /\
  sfits 4 (hnr_pvt_lon m) /\
  sfits 4 (hnr_pvt_lat m) /\
  sfits 4 (hnr_pvt_height m) /\
  sfits 4 (hnr_pvt_height_mean_sea_level m) /\
  sfits 4 (hnr_pvt_ground_speed m) /\
  sfits 4 (hnr_pvt_speed m) /\
  sfits 4 (hnr_pvt_heading_of_motion m) /\
  sfits 4 (hnr_pvt_heading_vehicle m) /\
  ufits 4 (hnr_pvt_horizontal_accuracy m) /\
  ufits 4 (hnr_pvt_vertical_accuracy m) /\
  ufits 4 (hnr_pvt_speed_acc m) /\
  ufits 4 (hnr_pvt_heading_acc m) /\
  Forall (ufits 1) (hnr_pvt_reserved2 m) /\ len (hnr_pvt_reserved2 m) = 4.

(** ubx_nav_att: ubx_messages.h:153-166 *)
Record nav_att := mk_nav_att { nav_att_class_id : Z; nav_att_msg_id : Z; nav_att_length : Z; nav_att_i_tow : Z; nav_att_version : Z; nav_att_reserved : list Z; nav_att_roll : Z; nav_att_pitch : Z; nav_att_heading : Z; nav_att_acc_roll : Z; nav_att_acc_pitch : Z; nav_att_acc_heading : Z }.
(** ubx_encode_nav_att: encode.c:214-248 *)
Definition encode_nav_att (m : nav_att) : list Z :=
  le 1 (nav_att_class_id m) ++
  le 1 (nav_att_msg_id m) ++
  le 2 (nav_att_length m) ++
  le 4 (nav_att_i_tow m) ++
  le 1 (nav_att_version m) ++
  flat_map (le 1) (take 3 (nav_att_reserved m)) ++
  le 4 (nav_att_roll m) ++
  le 4 (nav_att_pitch m) ++
  le 4 (nav_att_heading m) ++
  le 4 (nav_att_acc_roll m) ++
  le 4 (nav_att_acc_pitch m) ++
  le 4 (nav_att_acc_heading m).
(** ubx_decode_nav_att_bytestream: decode.c:157-188 *)
Definition decode_nav_att : bdec nav_att :=
  class_id <~ getu 1 ;;
  msg_id <~ getu 1 ;;
  check (class_id =? 1) ;;;
  check (msg_id =? 5) ;;;
  length <~ getu 2 ;;
  i_tow <~ getu 4 ;;
  version <~ getu 1 ;;
  reserved <~ get_n 3 (getu 1) ;;
  roll <~ gets 4 ;;
  pitch <~ gets 4 ;;
  heading <~ gets 4 ;;
  acc_roll <~ getu 4 ;;
  acc_pitch <~ getu 4 ;;
  acc_heading <~ getu 4 ;;
  bret (mk_nav_att class_id msg_id length i_tow version reserved roll pitch heading acc_roll acc_pitch acc_heading).
(** every field is representable in its C type and the message is of its type *)
Definition nav_att_fits (m : nav_att) : Prop :=
  nav_att_class_id m = 1 /\ nav_att_msg_id m = 5 /\
  ufits 1 (nav_att_class_id m) /\
  ufits 1 (nav_att_msg_id m) /\
  ufits 2 (nav_att_length m) /\
  ufits 4 (nav_att_i_tow m) /\
  ufits 1 (nav_att_version m) /\
  Forall (ufits 1) (nav_att_reserved m) /\ len (nav_att_reserved m) = 3 /\
  sfits 4 (nav_att_roll m) /\
  sfits 4 (nav_att_pitch m) /\
  sfits 4 (nav_att_heading m) /\
  ufits 4 (nav_att_acc_roll m) /\
  ufits 4 (nav_att_acc_pitch m) /\
  ufits 4 (nav_att_acc_heading m).

(** ubx_nav_clock: ubx_messages.h:168-177 *)
Record nav_clock := mk_nav_clock { nav_clock_class_id : Z; nav_clock_msg_id : Z; nav_clock_length : Z; nav_clock_i_tow : Z; nav_clock_clk_bias : Z; nav_clock_clk_drift : Z; nav_clock_time_acc : Z; nav_clock_freq_acc : Z }.
(** ubx_encode_nav_clock: encode.c:256-280 *)
Definition encode_nav_clock (m : nav_clock) : list Z :=
  le 1 (nav_clock_class_id m) ++
  le 1 (nav_clock_msg_id m) ++
  le 2 (nav_clock_length m) ++
  le 4 (nav_clock_i_tow m) ++
  le 4 (nav_clock_clk_bias m) ++
  le 4 (nav_clock_clk_drift m) ++
  le 4 (nav_clock_time_acc m) ++
  le 4 (nav_clock_freq_acc m).
(** ubx_decode_nav_clock_bytestream: decode.c:196-220 *)
Definition decode_nav_clock : bdec nav_clock :=
  class_id <~ getu 1 ;;
  msg_id <~ getu 1 ;;
  check (class_id =? 1) ;;;
  check (msg_id =? 34) ;;;
  length <~ getu 2 ;;
  i_tow <~ getu 4 ;;
  clk_bias <~ gets 4 ;;
  clk_drift <~ gets 4 ;;
  time_acc <~ getu 4 ;;
  freq_acc <~ getu 4 ;;
  bret (mk_nav_clock class_id msg_id length i_tow clk_bias clk_drift time_acc freq_acc).
(** every field is representable in its C type and the message is of its type *)
Definition nav_clock_fits (m : nav_clock) : Prop :=
  nav_clock_class_id m = 1 /\ nav_clock_msg_id m = 34 /\
  ufits 1 (nav_clock_class_id m) /\
  ufits 1 (nav_clock_msg_id m) /\
  ufits 2 (nav_clock_length m) /\
  ufits 4 (nav_clock_i_tow m) /\
  sfits 4 (nav_clock_clk_bias m) /\
  sfits 4 (nav_clock_clk_drift m) /\
  ufits 4 (nav_clock_time_acc m) /\
  ufits 4 (nav_clock_freq_acc m).

(** ubx_nav_pvt: ubx_messages.h:179-216 *)
Record nav_pvt := mk_nav_pvt { nav_pvt_class_id : Z; nav_pvt_msg_id : Z; nav_pvt_length : Z; nav_pvt_i_tow : Z; nav_pvt_year : Z; nav_pvt_month : Z; nav_pvt_day : Z; nav_pvt_hour : Z; nav_pvt_min : Z; nav_pvt_sec : Z; nav_pvt_valid : Z; nav_pvt_time_acc : Z; nav_pvt_nano : Z; nav_pvt_fix_type : Z; nav_pvt_flags : Z; nav_pvt_flags2 : Z; nav_pvt_num_sats : Z; nav_pvt_lon : Z; nav_pvt_lat : Z; nav_pvt_height : Z; nav_pvt_height_mean_sea_level : Z; nav_pvt_horizontal_accuracy : Z; nav_pvt_vertical_accuracy : Z; nav_pvt_vel_north : Z; nav_pvt_vel_east : Z; nav_pvt_vel_down : Z; nav_pvt_ground_speed : Z; nav_pvt_heading_of_motion : Z; nav_pvt_speed_acc : Z; nav_pvt_heading_acc : Z; nav_pvt_PDOP : Z; nav_pvt_flags3 : Z; nav_pvt_reserved1 : list Z; nav_pvt_heading_vehicle : Z; nav_pvt_magnetic_declination : Z; nav_pvt_magnetic_declination_accuracy : Z }.
(** ubx_encode_nav_pvt: encode.c:288-369 *)
Definition encode_nav_pvt (m : nav_pvt) : list Z :=
  le 1 (nav_pvt_class_id m) ++
  le 1 (nav_pvt_msg_id m) ++
  le 2 (nav_pvt_length m) ++
  le 4 (nav_pvt_i_tow m) ++
  le 2 (nav_pvt_year m) ++
  le 1 (nav_pvt_month m) ++
  le 1 (nav_pvt_day m) ++
  le 1 (nav_pvt_hour m) ++
  le 1 (nav_pvt_min m) ++
  le 1 (nav_pvt_sec m) ++
  le 1 (nav_pvt_valid m) ++
  le 4 (nav_pvt_time_acc m) ++
  le 4 (nav_pvt_nano m) ++
  le 1 (nav_pvt_fix_type m) ++
  le 1 (nav_pvt_flags m) ++
  le 1 (nav_pvt_flags2 m) ++
  le 1 (nav_pvt_num_sats m) ++
  le 4 (nav_pvt_lon m) ++
  le 4 (nav_pvt_lat m) ++
  le 4 (nav_pvt_height m) ++
  le 4 (nav_pvt_height_mean_sea_level m) ++
  le 4 (nav_pvt_horizontal_accuracy m) ++
  le 4 (nav_pvt_vertical_accuracy m) ++
  le 4 (nav_pvt_vel_north m) ++
  le 4 (nav_pvt_vel_east m) ++
  le 4 (nav_pvt_vel_down m) ++
  le 4 (nav_pvt_ground_speed m) ++
  le 4 (nav_pvt_heading_of_motion m) ++
  le 4 (nav_pvt_speed_acc m) ++
  le 4 (nav_pvt_heading_acc m) ++
  le 2 (nav_pvt_PDOP m) ++
  le 1 (nav_pvt_flags3 m) ++
  flat_map (le 1) (take 5 (nav_pvt_reserved1 m)) ++
  le 4 (nav_pvt_heading_vehicle m) ++
  le 2 (nav_pvt_magnetic_declination m) ++
  le 2 (nav_pvt_magnetic_declination_accuracy m).
(** ubx_decode_nav_pvt_bytestream: decode.c:228-287 *)
Definition decode_nav_pvt : bdec nav_pvt :=
  class_id <~ getu 1 ;;
  msg_id <~ getu 1 ;;
  check (class_id =? 1) ;;;
  check (msg_id =? 7) ;;;
  length <~ getu 2 ;;
  i_tow <~ getu 4 ;;
  year <~ getu 2 ;;
  month <~ getu 1 ;;
  day <~ getu 1 ;;
  hour <~ getu 1 ;;
  min <~ getu 1 ;;
  sec <~ getu 1 ;;
  valid <~ getu 1 ;;
  time_acc <~ getu 4 ;;
  nano <~ gets 4 ;;
  fix_type <~ getu 1 ;;
  flags <~ getu 1 ;;
  flags2 <~ getu 1 ;;
  num_sats <~ getu 1 ;;
  lon <~ gets 4 ;;
  lat <~ gets 4 ;;
  height <~ gets 4 ;;
  height_mean_sea_level <~ gets 4 ;;
  horizontal_accuracy <~ getu 4 ;;
  vertical_accuracy <~ getu 4 ;;
  vel_north <~ gets 4 ;;
  vel_east <~ gets 4 ;;
  vel_down <~ gets 4 ;;
  ground_speed <~ gets 4 ;;
  heading_of_motion <~ gets 4 ;;
  speed_acc <~ getu 4 ;;
  heading_acc <~ getu 4 ;;
  PDOP <~ getu 2 ;;
  flags3 <~ getu 1 ;;
  reserved1 <~ get_n 5 (getu 1) ;;
  heading_vehicle <~ gets 4 ;;
  magnetic_declination <~ gets 2 ;;
  magnetic_declination_accuracy <~ getu 2 ;;
  bret (mk_nav_pvt class_id msg_id length i_tow year month day hour min sec valid time_acc nano fix_type flags flags2 num_sats lon lat height height_mean_sea_level horizontal_accuracy vertical_accuracy vel_north vel_east vel_down ground_speed heading_of_motion speed_acc heading_acc PDOP flags3 reserved1 heading_vehicle magnetic_declination magnetic_declination_accuracy).
(** every field is representable in its C type and the message is of its type *)
Definition nav_pvt_fits (m : nav_pvt) : Prop :=
  nav_pvt_class_id m = 1 /\ nav_pvt_msg_id m = 7 /\
  ufits 1 (nav_pvt_class_id m) /\
  ufits 1 (nav_pvt_msg_id m) /\
  ufits 2 (nav_pvt_length m) /\
  ufits 4 (nav_pvt_i_tow m) /\
  ufits 2 (nav_pvt_year m) /\
  ufits 1 (nav_pvt_month m) /\
  ufits 1 (nav_pvt_day m) /\
  ufits 1 (nav_pvt_hour m) /\
  ufits 1 (nav_pvt_min m) /\
  ufits 1 (nav_pvt_sec m) /\
  ufits 1 (nav_pvt_valid m) /\
  ufits 4 (nav_pvt_time_acc m) /\
  sfits 4 (nav_pvt_nano m) /\
  ufits 1 (nav_pvt_fix_type m) /\
  ufits 1 (nav_pvt_flags m) /\
  ufits 1 (nav_pvt_flags2 m) /\
  ufits 1 (nav_pvt_num_sats m) /\
  sfits 4 (nav_pvt_lon m) /\
  sfits 4 (nav_pvt_lat m) /\
  sfits 4 (nav_pvt_height m) /\
  sfits 4 (nav_pvt_height_mean_sea_level m) /\
  ufits 4 (nav_pvt_horizontal_accuracy m) /\
  ufits 4 (nav_pvt_vertical_accuracy m) /\
  sfits 4 (nav_pvt_vel_north m) /\
  sfits 4 (nav_pvt_vel_east m) /\
  sfits 4 (nav_pvt_vel_down m) /\
  sfits 4 (nav_pvt_ground_speed m) /\
  sfits 4 (nav_pvt_heading_of_motion m) /\
  ufits 4 (nav_pvt_speed_acc m) /\
  ufits 4 (nav_pvt_heading_acc m) /\
  ufits 2 (nav_pvt_PDOP m) /\
  ufits 1 (nav_pvt_flags3 m) /\
  Forall (ufits 1) (nav_pvt_reserved1 m) /\ len (nav_pvt_reserved1 m) = 5 /\
  sfits 4 (nav_pvt_heading_vehicle m) /\
  sfits 2 (nav_pvt_magnetic_declination m) /\
  ufits 2 (nav_pvt_magnetic_declination_accuracy m).

(** ubx_nav_velecef: ubx_messages.h:218-227 *)
Record nav_velecef := mk_nav_velecef { nav_velecef_class_id : Z; nav_velecef_msg_id : Z; nav_velecef_length : Z; nav_velecef_i_tow : Z; nav_velecef_ecefVX : Z; nav_velecef_ecefVY : Z; nav_velecef_ecefVZ : Z; nav_velecef_speed_acc : Z }.
(** ubx_encode_nav_velecef: encode.c:377-401 *)
Definition encode_nav_velecef (m : nav_velecef) : list Z :=
  le 1 (nav_velecef_class_id m) ++
  le 1 (nav_velecef_msg_id m) ++
  le 2 (nav_velecef_length m) ++
  le 4 (nav_velecef_i_tow m) ++
  le 4 (nav_velecef_ecefVX m) ++
  le 4 (nav_velecef_ecefVY m) ++
  le 4 (nav_velecef_ecefVZ m) ++
  le 4 (nav_velecef_speed_acc m).
(** ubx_decode_nav_velecef_bytestream: decode.c:295-319 *)
Definition decode_nav_velecef : bdec nav_velecef :=
  class_id <~ getu 1 ;;
  msg_id <~ getu 1 ;;
  check (class_id =? 1) ;;;
  check (msg_id =? 17) ;;;
  length <~ getu 2 ;;
  i_tow <~ getu 4 ;;
  ecefVX <~ gets 4 ;;
  ecefVY <~ gets 4 ;;
  ecefVZ <~ gets 4 ;;
  speed_acc <~ getu 4 ;;
  bret (mk_nav_velecef class_id msg_id length i_tow ecefVX ecefVY ecefVZ speed_acc).
(** every field is representable in its C type and the message is of its type *)
Definition nav_velecef_fits (m : nav_velecef) : Prop :=
  nav_velecef_class_id m = 1 /\ nav_velecef_msg_id m = 17 /\
  ufits 1 (nav_velecef_class_id m) /\
  ufits 1 (nav_velecef_msg_id m) /\
  ufits 2 (nav_velecef_length m) /\
  ufits 4 (nav_velecef_i_tow m) /\
  sfits 4 (nav_velecef_ecefVX m) /\
  sfits 4 (nav_velecef_ecefVY m) /\
  sfits 4 (nav_velecef_ecefVZ m) /\
  ufits 4 (nav_velecef_speed_acc m).

(** ubx_nav_status: ubx_messages.h:250-261 *)
Record nav_status := mk_nav_status { nav_status_class_id : Z; nav_status_msg_id : Z; nav_status_length : Z; nav_status_i_tow : Z; nav_status_fix_type : Z; nav_status_status_flags : Z; nav_status_fix_status : Z; nav_status_status_flags_ext : Z; nav_status_ttff_ms : Z; nav_status_msss : Z }.
(** ubx_encode_nav_status: encode.c:461-489 *)
Definition encode_nav_status (m : nav_status) : list Z :=
  le 1 (nav_status_class_id m) ++
  le 1 (nav_status_msg_id m) ++
  le 2 (nav_status_length m) ++
  le 4 (nav_status_i_tow m) ++
  le 1 (nav_status_fix_type m) ++
  le 1 (nav_status_status_flags m) ++
  le 1 (nav_status_fix_status m) ++
  le 1 (nav_status_status_flags_ext m) ++
  le 4 (nav_status_ttff_ms m) ++
  le 4 (nav_status_msss m).
(** ubx_decode_nav_status_bytestream: decode.c:374-400 *)
Definition decode_nav_status : bdec nav_status :=
  class_id <~ getu 1 ;;
  msg_id <~ getu 1 ;;
  check (class_id =? 1) ;;;
  check (msg_id =? 3) ;;;
  length <~ getu 2 ;;
  i_tow <~ getu 4 ;;
  fix_type <~ getu 1 ;;
  status_flags <~ getu 1 ;;
  fix_status <~ getu 1 ;;
  status_flags_ext <~ getu 1 ;;
  ttff_ms <~ getu 4 ;;
  msss <~ getu 4 ;;
  bret (mk_nav_status class_id msg_id length i_tow fix_type status_flags fix_status status_flags_ext ttff_ms msss).
(** every field is representable in its C type and the message is of its type *)
Definition nav_status_fits (m : nav_status) : Prop :=
  nav_status_class_id m = 1 /\ nav_status_msg_id m = 3 /\
  ufits 1 (nav_status_class_id m) /\
  ufits 1 (nav_status_msg_id m) /\
  ufits 2 (nav_status_length m) /\
  ufits 4 (nav_status_i_tow m) /\
  ufits 1 (nav_status_fix_type m) /\
  ufits 1 (nav_status_status_flags m) /\
  ufits 1 (nav_status_fix_status m) /\
  ufits 1 (nav_status_status_flags_ext m) /\
  ufits 4 (nav_status_ttff_ms m) /\
  ufits 4 (nav_status_msss m).

(** ubx_mga_gps_eph: ubx_messages.h:116-151 *)
Record mga_gps_eph := mk_mga_gps_eph { mga_gps_eph_class_id : Z; mga_gps_eph_msg_id : Z; mga_gps_eph_length : Z; mga_gps_eph_msg_type : Z; mga_gps_eph_version : Z; mga_gps_eph_sat_id : Z; mga_gps_eph_reserved1 : Z; mga_gps_eph_fit_interval : Z; mga_gps_eph_ura_index : Z; mga_gps_eph_sat_health : Z; mga_gps_eph_tgd : Z; mga_gps_eph_iodc : Z; mga_gps_eph_toc : Z; mga_gps_eph_reserved2 : Z; mga_gps_eph_af2 : Z; mga_gps_eph_af1 : Z; mga_gps_eph_af0 : Z; mga_gps_eph_crs : Z; mga_gps_eph_delta_N : Z; mga_gps_eph_m0 : Z; mga_gps_eph_cuc : Z; mga_gps_eph_cus : Z; mga_gps_eph_e : Z; mga_gps_eph_sqrt_A : Z; mga_gps_eph_toe : Z; mga_gps_eph_cic : Z; mga_gps_eph_omega0 : Z; mga_gps_eph_cis : Z; mga_gps_eph_crc : Z; mga_gps_eph_i0 : Z; mga_gps_eph_omega : Z; mga_gps_eph_omega_dot : Z; mga_gps_eph_i_dot : Z; mga_gps_eph_reserved3 : list Z }.
(** ubx_encode_mga_gps_eph: encode.c:497-577 *)
Definition encode_mga_gps_eph (m : mga_gps_eph) : list Z :=
  le 1 (mga_gps_eph_class_id m) ++
  le 1 (mga_gps_eph_msg_id m) ++
  le 2 (mga_gps_eph_length m) ++
  le 1 (mga_gps_eph_msg_type m) ++
  le 1 (mga_gps_eph_version m) ++
  le 1 (mga_gps_eph_sat_id m) ++
  le 1 (mga_gps_eph_reserved1 m) ++
  le 1 (mga_gps_eph_fit_interval m) ++
  le 1 (mga_gps_eph_ura_index m) ++
  le 1 (mga_gps_eph_sat_health m) ++
  le 1 (mga_gps_eph_tgd m) ++
  le 2 (mga_gps_eph_iodc m) ++
  le 2 (mga_gps_eph_toc m) ++
  le 1 (mga_gps_eph_reserved2 m) ++
  le 1 (mga_gps_eph_af2 m) ++
  le 2 (mga_gps_eph_af1 m) ++
  le 4 (mga_gps_eph_af0 m) ++
  le 2 (mga_gps_eph_crs m) ++
  le 2 (mga_gps_eph_delta_N m) ++
  le 4 (mga_gps_eph_m0 m) ++
  le 2 (mga_gps_eph_cuc m) ++
  le 2 (mga_gps_eph_cus m) ++
  le 4 (mga_gps_eph_e m) ++
  le 4 (mga_gps_eph_sqrt_A m) ++
  le 2 (mga_gps_eph_toe m) ++
  le 2 (mga_gps_eph_cic m) ++
  le 4 (mga_gps_eph_omega0 m) ++
  le 2 (mga_gps_eph_cis m) ++
  le 2 (mga_gps_eph_crc m) ++
  le 4 (mga_gps_eph_i0 m) ++
  le 4 (mga_gps_eph_omega m) ++
  le 4 (mga_gps_eph_omega_dot m) ++
  le 2 (mga_gps_eph_i_dot m) ++
  flat_map (le 1) (take 2 (mga_gps_eph_reserved3 m)).
(** ubx_decode_mga_gps_eph_bytestream: decode.c:408-463 *)
Definition decode_mga_gps_eph : bdec mga_gps_eph :=
  class_id <~ getu 1 ;;
  msg_id <~ getu 1 ;;
  check (class_id =? 0x13) ;;;
  check (msg_id =? 0x00) ;;;
  length <~ getu 2 ;;
  msg_type <~ getu 1 ;;
  version <~ getu 1 ;;
  sat_id <~ getu 1 ;;
  reserved1 <~ getu 1 ;;
  fit_interval <~ getu 1 ;;
  ura_index <~ getu 1 ;;
  sat_health <~ getu 1 ;;
  tgd <~ gets 1 ;;
  iodc <~ getu 2 ;;
  toc <~ getu 2 ;;
  reserved2 <~ getu 1 ;;
  af2 <~ gets 1 ;;
  af1 <~ gets 2 ;;
  af0 <~ gets 4 ;;
  crs <~ gets 2 ;;
  delta_N <~ gets 2 ;;
  m0 <~ gets 4 ;;
  cuc <~ gets 2 ;;
  cus <~ gets 2 ;;
  e <~ getu 4 ;;
  sqrt_A <~ getu 4 ;;
  toe <~ getu 2 ;;
  cic <~ gets 2 ;;
  omega0 <~ gets 4 ;;
  cis <~ gets 2 ;;
  crc <~ gets 2 ;;
  i0 <~ gets 4 ;;
  omega <~ gets 4 ;;
  omega_dot <~ gets 4 ;;
  i_dot <~ gets 2 ;;
  reserved3 <~ get_n 2 (getu 1) ;;
  bret (mk_mga_gps_eph class_id msg_id length msg_type version sat_id reserved1 fit_interval ura_index sat_health tgd iodc toc reserved2 af2 af1 af0 crs delta_N m0 cuc cus e sqrt_A toe cic omega0 cis crc i0 omega omega_dot i_dot reserved3).
(** every field is representable in its C type and the message is of its type *)
Definition mga_gps_eph_fits (m : mga_gps_eph) : Prop :=
  mga_gps_eph_class_id m = 0x13 /\ mga_gps_eph_msg_id m = 0x00 /\
  ufits 1 (mga_gps_eph_class_id m) /\
  ufits 1 (mga_gps_eph_msg_id m) /\
  ufits 2 (mga_gps_eph_length m) /\
  ufits 1 (mga_gps_eph_msg_type m) /\
  ufits 1 (mga_gps_eph_version m) /\
  ufits 1 (mga_gps_eph_sat_id m) /\
  ufits 1 (mga_gps_eph_reserved1 m) /\
  ufits 1 (mga_gps_eph_fit_interval m) /\
  ufits 1 (mga_gps_eph_ura_index m) /\
  ufits 1 (mga_gps_eph_sat_health m) /\
  sfits 1 (mga_gps_eph_tgd m) /\
  ufits 2 (mga_gps_eph_iodc m) /\
  ufits 2 (mga_gps_eph_toc m) /\
  ufits 1 (mga_gps_eph_reserved2 m) /\
  sfits 1 (mga_gps_eph_af2 m) /\
  sfits 2 (mga_gps_eph_af1 m) /\
  sfits 4 (mga_gps_eph_af0 m) /\
  sfits 2 (mga_gps_eph_crs m) /\
  sfits 2 (mga_gps_eph_delta_N m) /\
  sfits 4 (mga_gps_eph_m0 m) /\
  sfits 2 (mga_gps_eph_cuc m) /\
  sfits 2 (mga_gps_eph_cus m) /\
  ufits 4 (mga_gps_eph_e m) /\
  ufits 4 (mga_gps_eph_sqrt_A m) /\
  ufits 2 (mga_gps_eph_toe m) /\
  sfits 2 (mga_gps_eph_cic m) /\
  sfits 4 (mga_gps_eph_omega0 m) /\
  sfits 2 (mga_gps_eph_cis m) /\
  sfits 2 (mga_gps_eph_crc m) /\
  sfits 4 (mga_gps_eph_i0 m) /\
  sfits 4 (mga_gps_eph_omega m) /\
  sfits 4 (mga_gps_eph_omega_dot m) /\
  sfits 2 (mga_gps_eph_i_dot m) /\
  Forall (ufits 1) (mga_gps_eph_reserved3 m) /\ len (mga_gps_eph_reserved3 m) = 2.

(** ubx_esf_ins: ubx_messages.h:295-308 *)
Record esf_ins := mk_esf_ins { esf_ins_class_id : Z; esf_ins_msg_id : Z; esf_ins_length : Z; esf_ins_bitfield0 : Z; esf_ins_reserved1 : list Z; esf_ins_i_tow : Z; esf_ins_x_ang_rate : Z; esf_ins_y_ang_rate : Z; esf_ins_z_ang_rate : Z; esf_ins_x_accel : Z; esf_ins_y_accel : Z; esf_ins_z_accel : Z }.
(** ubx_encode_esf_ins: encode.c:630-666 *)
Definition encode_esf_ins (m : esf_ins) : list Z :=
  le 1 (esf_ins_class_id m) ++
  le 1 (esf_ins_msg_id m) ++
  le 2 (esf_ins_length m) ++
  le 4 (esf_ins_bitfield0 m) ++
  flat_map (le 1) (take 4 (esf_ins_reserved1 m)) ++
  le 4 (esf_ins_i_tow m) ++
  le 4 (esf_ins_x_ang_rate m) ++
  le 4 (esf_ins_y_ang_rate m) ++
  le 4 (esf_ins_z_ang_rate m) ++
  le 4 (esf_ins_x_accel m) ++
  le 4 (esf_ins_y_accel m) ++
  le 4 (esf_ins_z_accel m).
(** ubx_decode_esf_ins_bytestream: decode.c:514-546 *)
Definition decode_esf_ins : bdec esf_ins :=
  class_id <~ getu 1 ;;
  msg_id <~ getu 1 ;;
  check (class_id =? 16) ;;;
  check (msg_id =? 21) ;;;
  length <~ getu 2 ;;
  bitfield0 <~ getu 4 ;;
  reserved1 <~ get_n 4 (getu 1) ;;
  i_tow <~ getu 4 ;;
  x_ang_rate <~ gets 4 ;;
  y_ang_rate <~ gets 4 ;;
  z_ang_rate <~ gets 4 ;;
  x_accel <~ gets 4 ;;
  y_accel <~ gets 4 ;;
  z_accel <~ gets 4 ;;
  bret (mk_esf_ins class_id msg_id length bitfield0 reserved1 i_tow x_ang_rate y_ang_rate z_ang_rate x_accel y_accel z_accel).
(** every field is representable in its C type and the message is of its type *)
Definition esf_ins_fits (m : esf_ins) : Prop :=
  esf_ins_class_id m = 16 /\ esf_ins_msg_id m = 21 /\
  ufits 1 (esf_ins_class_id m) /\
  ufits 1 (esf_ins_msg_id m) /\
  ufits 2 (esf_ins_length m) /\
  ufits 4 (esf_ins_bitfield0 m) /\
  Forall (ufits 1) (esf_ins_reserved1 m) /\ len (esf_ins_reserved1 m) = 4 /\
  ufits 4 (esf_ins_i_tow m) /\
  sfits 4 (esf_ins_x_ang_rate m) /\
  sfits 4 (esf_ins_y_ang_rate m) /\
  sfits 4 (esf_ins_z_ang_rate m) /\
  sfits 4 (esf_ins_x_accel m) /\
  sfits 4 (esf_ins_y_accel m) /\
  sfits 4 (esf_ins_z_accel m).

