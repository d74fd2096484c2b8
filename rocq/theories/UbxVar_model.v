(** libubx messages with a variable number of elements: c/libubx/include/ubx/ubx_messages.h, c/libubx/src/encode.c,
    c/libubx/src/decode.c.  Parallel arrays of the C structs are represented by one list of records; double and float fields by
    their bit patterns. *)
From Verif Require Import Base Bits_model Bytestream_model.

(** *** RXM-RAWX *)
(** one element of the arrays of ubx_rxm_rawx: ubx_messages.h:98-109 *)
Record rawx_meas := mk_rawx_meas { rm_pseudorange : Z; rm_carrier_phase : Z; rm_doppler : Z; rm_gnss_id : Z; rm_sat_id : Z;
  rm_sig_id : Z; rm_freq_id : Z; rm_lock_time : Z; rm_cno : Z; rm_pr_std : Z; rm_cp_std : Z; rm_doppler_std : Z; rm_track_state : Z;
  rm_reserved2 : Z }.
(** ubx_rxm_rawx: ubx_messages.h:87-110 *)
Record rawx := mk_rawx { rx_class_id : Z; rx_msg_id : Z; rx_length : Z; rx_rcv_tow : Z; rx_rcv_wn : Z; rx_leap_second : Z;
  rx_num_meas : Z; rx_rec_status : Z; rx_version : Z; rx_reserved1 : list Z; rx_meas : list rawx_meas }.
Definition UBX_MAX_NUM_OBS : Z := 256. (* c/libubx/include/ubx/constants.h:18 *)
(** encode.c:175-204 *)
Definition encode_rawx_meas (m : rawx_meas) : list Z :=
  le 8 (rm_pseudorange m) ++ le 8 (rm_carrier_phase m) ++ le 4 (rm_doppler m) ++ le 1 (rm_gnss_id m) ++ le 1 (rm_sat_id m) ++
  le 1 (rm_sig_id m) ++ le 1 (rm_freq_id m) ++ le 2 (rm_lock_time m) ++ le 1 (rm_cno m) ++ le 1 (rm_pr_std m) ++
  le 1 (rm_cp_std m) ++ le 1 (rm_doppler_std m) ++ le 1 (rm_track_state m) ++ le 1 (rm_reserved2 m).
(** ubx_encode_rawx: encode.c:146-206 *)
Definition encode_rawx (m : rawx) : list Z :=
  le 1 (rx_class_id m) ++ le 1 (rx_msg_id m) ++ le 2 (rx_length m) ++ le 8 (rx_rcv_tow m) ++ le 2 (rx_rcv_wn m) ++
  le 1 (rx_leap_second m) ++ le 1 (rx_num_meas m) ++ le 1 (rx_rec_status m) ++ le 1 (rx_version m) ++
  flat_map (le 1) (take 2 (rx_reserved1 m)) ++ flat_map encode_rawx_meas (take (rx_num_meas m) (rx_meas m)).
(** decode.c:133-146 *)
Definition decode_rawx_meas : bdec rawx_meas :=
  pr <~ getu 8 ;; cp <~ getu 8 ;; dop <~ getu 4 ;; gnss <~ getu 1 ;; sat <~ getu 1 ;; sig <~ getu 1 ;; freq <~ getu 1 ;;
  lock <~ getu 2 ;; cno <~ getu 1 ;; prs <~ getu 1 ;; cps <~ getu 1 ;; dos <~ getu 1 ;; trk <~ getu 1 ;; r2 <~ getu 1 ;;
  bret (mk_rawx_meas pr cp dop gnss sat sig freq lock cno prs cps dos trk r2).
(** ubx_decode_rxm_rawx_bytestream: decode.c:106-149 *)
Definition decode_rawx : bdec rawx :=
  class_id <~ getu 1 ;; msg_id <~ getu 1 ;;
  check (class_id =? 0x02) ;;; check (msg_id =? 0x15) ;;;
  length <~ getu 2 ;; rcv_tow <~ getu 8 ;; rcv_wn <~ getu 2 ;; leap_second <~ gets 1 ;; num_meas <~ getu 1 ;;
  rec_status <~ getu 1 ;; version <~ getu 1 ;; reserved1 <~ get_n 2 (getu 1) ;;
  meas <~ get_array UBX_MAX_NUM_OBS 0 (Z.to_nat num_meas) decode_rawx_meas ;;
  bret (mk_rawx class_id msg_id length rcv_tow rcv_wn leap_second num_meas rec_status version reserved1 meas).
Definition rawx_meas_fits (m : rawx_meas) : Prop :=
  ufits 8 (rm_pseudorange m) /\ ufits 8 (rm_carrier_phase m) /\ ufits 4 (rm_doppler m) /\ ufits 1 (rm_gnss_id m) /\
  ufits 1 (rm_sat_id m) /\ ufits 1 (rm_sig_id m) /\ ufits 1 (rm_freq_id m) /\ ufits 2 (rm_lock_time m) /\ ufits 1 (rm_cno m) /\
  ufits 1 (rm_pr_std m) /\ ufits 1 (rm_cp_std m) /\ ufits 1 (rm_doppler_std m) /\ ufits 1 (rm_track_state m) /\ ufits 1 (rm_reserved2 m).
(** values representable in the C types, as many measurements as announced *)
Definition rawx_fits (m : rawx) : Prop :=
  rx_class_id m = 0x02 /\ rx_msg_id m = 0x15 /\ ufits 2 (rx_length m) /\ ufits 8 (rx_rcv_tow m) /\ ufits 2 (rx_rcv_wn m) /\
  sfits 1 (rx_leap_second m) /\ ufits 1 (rx_num_meas m) /\ ufits 1 (rx_rec_status m) /\ ufits 1 (rx_version m) /\
  Forall (ufits 1) (rx_reserved1 m) /\ len (rx_reserved1 m) = 2 /\
  Forall rawx_meas_fits (rx_meas m) /\ len (rx_meas m) = rx_num_meas m.

(** *** NAV-SAT *)
(** ubx_nav_sat_data: ubx_messages.h:229-237 *)
Record nav_sat_data := mk_nav_sat_data { ns_gnss_id : Z; ns_sv_id : Z; ns_cno : Z; ns_elev : Z; ns_azim : Z; ns_pr_res : Z; ns_flags : Z }.
(** ubx_nav_sat: ubx_messages.h:239-248 *)
Record nav_sat := mk_nav_sat { nst_class_id : Z; nst_msg_id : Z; nst_length : Z; nst_i_tow : Z; nst_version : Z; nst_num_svs : Z;
  nst_reserved1 : Z; nst_data : list nav_sat_data }.
Definition NAV_DATA_MAX_COUNT : Z := 100. (* ubx_messages.h:38 *)
(** encode.c:436-450 *)
Definition encode_nav_sat_data (d : nav_sat_data) : list Z :=
  le 1 (ns_gnss_id d) ++ le 1 (ns_sv_id d) ++ le 1 (ns_cno d) ++ le 1 (ns_elev d) ++ le 2 (ns_azim d) ++ le 2 (ns_pr_res d) ++ le 4 (ns_flags d).
(** ubx_encode_nav_sat: encode.c:409-453 *)
Definition encode_nav_sat (m : nav_sat) : list Z :=
  le 1 (nst_class_id m) ++ le 1 (nst_msg_id m) ++ le 2 (nst_length m) ++ le 4 (nst_i_tow m) ++ le 1 (nst_version m) ++
  le 1 (nst_num_svs m) ++ le 2 (nst_reserved1 m) ++
  flat_map encode_nav_sat_data (take (Z.min (nst_num_svs m) NAV_DATA_MAX_COUNT) (nst_data m)).
(** decode.c:357-363 *)
Definition decode_nav_sat_data : bdec nav_sat_data :=
  gnss <~ getu 1 ;; sv <~ getu 1 ;; cno <~ getu 1 ;; elev <~ gets 1 ;; azim <~ gets 2 ;; prr <~ gets 2 ;; flags <~ getu 4 ;;
  bret (mk_nav_sat_data gnss sv cno elev azim prr flags).
(** the loop of decode.c:350-364 with its "if (i >= NAV_DATA_MAX_COUNT) break" *)
Fixpoint nav_sat_loop (i : Z) (n : nat) : bdec (list nav_sat_data) :=
  match n with
  | O => bret []
  | S k => if NAV_DATA_MAX_COUNT <=? i then bret []
           else x <~ (if NAV_DATA_MAX_COUNT <=? i then bub else decode_nav_sat_data) ;; r <~ nav_sat_loop (i + 1) k ;; bret (x :: r)
  end.
(** ubx_decode_nav_sat_bytestream: decode.c:327-367 *)
Definition decode_nav_sat : bdec nav_sat :=
  class_id <~ getu 1 ;; msg_id <~ getu 1 ;;
  check (class_id =? 1) ;;; check (msg_id =? 0x35) ;;;
  length <~ getu 2 ;; i_tow <~ getu 4 ;; version <~ getu 1 ;; num_svs <~ getu 1 ;; reserved1 <~ getu 2 ;;
  data <~ nav_sat_loop 0 (Z.to_nat num_svs) ;;
  bret (mk_nav_sat class_id msg_id length i_tow version num_svs reserved1 data).
Definition nav_sat_data_fits (d : nav_sat_data) : Prop :=
  ufits 1 (ns_gnss_id d) /\ ufits 1 (ns_sv_id d) /\ ufits 1 (ns_cno d) /\ sfits 1 (ns_elev d) /\ sfits 2 (ns_azim d) /\
  sfits 2 (ns_pr_res d) /\ ufits 4 (ns_flags d).
Definition nav_sat_fits (m : nav_sat) : Prop :=
  nst_class_id m = 1 /\ nst_msg_id m = 0x35 /\ ufits 2 (nst_length m) /\ ufits 4 (nst_i_tow m) /\ ufits 1 (nst_version m) /\
  ufits 1 (nst_num_svs m) /\ ufits 2 (nst_reserved1 m) /\ Forall nav_sat_data_fits (nst_data m) /\
  len (nst_data m) = Z.min (nst_num_svs m) 100.

(** *** RXM-SFRBX *)
(** ubx_rxm_sfrbx: ubx_messages.h:263-276 *)
Record sfrbx := mk_sfrbx { sf_class_id : Z; sf_msg_id : Z; sf_length : Z; sf_gnss_id : Z; sf_sat_id : Z; sf_reserved1 : Z;
  sf_freq_id : Z; sf_num_words : Z; sf_channel : Z; sf_version : Z; sf_reserved2 : Z; sf_words : list Z }.
Definition UBX_RXM_SFRBX_MAX_DATA_WORDS : Z := 10. (* ubx_messages.h:55 *)
(** ubx_encode_rxm_sfrbx: encode.c:585-622.  The memset of 40 bytes before the words only touches the buffer beyond the message. *)
Definition encode_sfrbx (m : sfrbx) : list Z :=
  le 1 (sf_class_id m) ++ le 1 (sf_msg_id m) ++ le 2 (sf_length m) ++ le 1 (sf_gnss_id m) ++ le 1 (sf_sat_id m) ++
  le 1 (sf_reserved1 m) ++ le 1 (sf_freq_id m) ++ le 1 (sf_num_words m) ++ le 1 (sf_channel m) ++ le 1 (sf_version m) ++
  le 1 (sf_reserved2 m) ++ flat_map (le 4) (take (sf_num_words m) (sf_words m)).
(** ubx_decode_rxm_sfrbx_bytestream: decode.c:471-506 *)
Definition decode_sfrbx : bdec sfrbx :=
  class_id <~ getu 1 ;; msg_id <~ getu 1 ;;
  check (class_id =? 0x02) ;;; check (msg_id =? 0x13) ;;;
  length <~ getu 2 ;; gnss_id <~ getu 1 ;; sat_id <~ getu 1 ;; reserved1 <~ getu 1 ;; freq_id <~ getu 1 ;; num_words <~ getu 1 ;;
  channel <~ getu 1 ;; version <~ getu 1 ;; reserved2 <~ getu 1 ;;
  if UBX_RXM_SFRBX_MAX_DATA_WORDS <? num_words then binvalid
  else words <~ get_array UBX_RXM_SFRBX_MAX_DATA_WORDS 0 (Z.to_nat num_words) (getu 4) ;;
       bret (mk_sfrbx class_id msg_id length gnss_id sat_id reserved1 freq_id num_words channel version reserved2 words).
Definition sfrbx_fits (m : sfrbx) : Prop :=
  sf_class_id m = 0x02 /\ sf_msg_id m = 0x13 /\ ufits 2 (sf_length m) /\ ufits 1 (sf_gnss_id m) /\ ufits 1 (sf_sat_id m) /\
  ufits 1 (sf_reserved1 m) /\ ufits 1 (sf_freq_id m) /\ 0 <= sf_num_words m <= 10 /\ ufits 1 (sf_channel m) /\ ufits 1 (sf_version m) /\
  ufits 1 (sf_reserved2 m) /\ Forall (ufits 4) (sf_words m) /\ len (sf_words m) = sf_num_words m.

(** *** ESF-MEAS *)
(** ubx_esf_meas: ubx_messages.h:311-320; calib_tag is written only when the message carries it *)
Record esf_meas := mk_esf_meas { em_class_id : Z; em_msg_id : Z; em_length : Z; em_time_tag : Z; em_flags : Z; em_id : Z;
  em_data : list Z; em_calib : option Z }.
Definition ESF_DATA_MAX_COUNT : Z := 128. (* ubx_messages.h:49 *)
Definition esf_num_meas (flags : Z) : Z := Z.land (Z.shiftr flags 11) 0x1F.
Definition esf_has_calib (flags : Z) : bool := negb (Z.land flags 0x8 =? 0).
(** ubx_encode_esf_meas: encode.c:674-705 *)
Definition encode_esf_meas (m : esf_meas) : list Z :=
  le 1 (em_class_id m) ++ le 1 (em_msg_id m) ++ le 2 (em_length m) ++ le 4 (em_time_tag m) ++ le 2 (em_flags m) ++ le 2 (em_id m) ++
  flat_map (le 4) (take (esf_num_meas (em_flags m)) (em_data m)) ++
  (if esf_has_calib (em_flags m) then le 4 (match em_calib m with Some c => c | None => 0 end) else []).
(** ubx_decode_esf_meas_bytestream: decode.c:554-586 *)
Definition decode_esf_meas : bdec esf_meas :=
  class_id <~ getu 1 ;; msg_id <~ getu 1 ;;
  check (class_id =? 0x10) ;;; check (msg_id =? 0x02) ;;;
  length <~ getu 2 ;; time_tag <~ getu 4 ;; flags <~ getu 2 ;; id <~ getu 2 ;;
  data <~ get_array ESF_DATA_MAX_COUNT 0 (Z.to_nat (esf_num_meas flags)) (getu 4) ;;
  calib <~ (if esf_has_calib flags then c <~ getu 4 ;; bret (Some c) else bret None) ;;
  bret (mk_esf_meas class_id msg_id length time_tag flags id data calib).
Definition esf_meas_fits (m : esf_meas) : Prop :=
  em_class_id m = 0x10 /\ em_msg_id m = 0x02 /\ ufits 2 (em_length m) /\ ufits 4 (em_time_tag m) /\ ufits 2 (em_flags m) /\
  ufits 2 (em_id m) /\ Forall (ufits 4) (em_data m) /\ len (em_data m) = em_flags m / 2048 mod 32 /\
  (if em_flags m / 8 mod 2 =? 1 then exists c, em_calib m = Some c /\ ufits 4 c else em_calib m = None).

(** *** ESF-RAW *)
(** ubx_esf_raw: ubx_messages.h:322-329; the arrays data and sensor_time_tag as one list of pairs *)
Record esf_raw := mk_esf_raw { er_class_id : Z; er_msg_id : Z; er_length : Z; er_msss : Z; er_data : list (Z * Z) }.
(** C's integer division truncates *)
Definition esf_raw_count (length : Z) : Z := Z.quot (length - 4) 8.
Definition encode_esf_raw_data (p : Z * Z) : list Z := le 4 (fst p) ++ le 4 (snd p).
(** ubx_encode_esf_raw: encode.c:713-735 *)
Definition encode_esf_raw (m : esf_raw) : list Z :=
  le 1 (er_class_id m) ++ le 1 (er_msg_id m) ++ le 2 (er_length m) ++ le 4 (er_msss m) ++
  flat_map encode_esf_raw_data (take (esf_raw_count (er_length m)) (er_data m)).
Definition decode_esf_raw_data : bdec (Z * Z) := d <~ getu 4 ;; t <~ getu 4 ;; bret (d, t).
(** ubx_decode_esf_raw_bytestream: decode.c:594-624 *)
Definition decode_esf_raw : bdec esf_raw :=
  class_id <~ getu 1 ;; msg_id <~ getu 1 ;;
  check (class_id =? 0x10) ;;; check (msg_id =? 0x03) ;;;
  length <~ getu 2 ;;
  if ESF_DATA_MAX_COUNT <? esf_raw_count length then binvalid
  else msss <~ getu 4 ;; data <~ get_array ESF_DATA_MAX_COUNT 0 (Z.to_nat (esf_raw_count length)) decode_esf_raw_data ;;
       bret (mk_esf_raw class_id msg_id length msss data).
Definition esf_raw_fits (m : esf_raw) : Prop :=
  er_class_id m = 0x10 /\ er_msg_id m = 0x03 /\ ufits 2 (er_length m) /\ ufits 4 (er_msss m) /\
  Forall (fun p => ufits 4 (fst p) /\ ufits 4 (snd p)) (er_data m) /\
  len (er_data m) = Z.max 0 ((er_length m - 4) / 8) /\ len (er_data m) <= 128.
