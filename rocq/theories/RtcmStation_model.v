(** Models of librtcm's station/text/bias/proprietary messages: encoders of c/librtcm/src/encode.c,
    decoders of c/librtcm/src/decode.c.
    Simplifications: a (counter, char array) pair of the C structs is the list of its first [counter] bytes; a double
    that the encoder quantises is the integer number of quanta (the double being quanta/10000.0 resp. quanta*0.02; see
    StaConv_proofs.v for the floating-point round trip). *)
From Verif Require Import Base Bitstring Bits_model Bitstream_model.

(** rtcm_msg_1005: c/librtcm/include/rtcm3/messages.h; arp in 0.1 mm *)
Record msg_1005 := mk1005 { stn_id : Z; itrf : Z; gps_ind : Z; glo_ind : Z; gal_ind : Z; ref_stn_ind : Z;
  arp_x : Z; osc_ind : Z; arp_y : Z; quart_cycle_ind : Z; arp_z : Z }.
(** rtcm_msg_1006; height in 0.1 mm *)
Record msg_1006 := mk1006 { m6_1005 : msg_1005; ant_height : Z }.
Record msg_1007 := mk1007 { m7_stn_id : Z; ant_descriptor : list Z; ant_setup_id : Z }.
Record msg_1008 := mk1008 { m8_1007 : msg_1007; ant_serial_num : list Z }.
Record msg_1029 := mk1029 { m29_stn_id : Z; mjd_num : Z; utc_sec_of_day : Z; unicode_chars : Z; utf8_code_units : list Z }.
Record msg_1033 := mk1033 { m33_stn_id : Z; m33_ant_descriptor : list Z; m33_ant_setup_id : Z; m33_ant_serial_num : list Z;
  rcv_descriptor : list Z; rcv_fw_version : list Z; rcv_serial_num : list Z }.
(** biases in units of 0.02 m *)
Record msg_1230 := mk1230 { m230_stn_id : Z; bias_indicator : Z; fdma_signal_mask : Z; l1_ca : Z; l1_p : Z; l2_ca : Z; l2_p : Z }.
(** rtcm_msg_swift_proprietary: messages.h:378-383 *)
Record msg_4062 := mk4062 { msg_type : Z; sender_id : Z; data : list Z }.

Definition RTCM_MAX_STRING_LEN : Z := 32. (* messages.h *)

(** *** encoders *)
Definition encode_fields (fs : list field) (buff : list Z) : list Z * Z :=
  let '(b, bit) := put_fields buff 0 fs in (b, byte_len bit).
(** rtcm3_encode_1005_base: encode.c:543-573 *)
Definition fields_1005_base (m : msg_1005) : list field :=
  [ (12, stn_id m); (6, itrf m); (1, gps_ind m); (1, glo_ind m); (1, gal_ind m); (1, ref_stn_ind m);
    (38, arp_x m); (1, osc_ind m); (1, 0); (38, arp_y m); (2, quart_cycle_ind m); (38, arp_z m) ].
(** rtcm3_encode_1005: encode.c:575-581 *)
Definition encode_1005 (m : msg_1005) := encode_fields ((12, 1005) :: fields_1005_base m).
(** rtcm3_encode_1006: encode.c:583-600, RTCM_1006_MAX_ANTENNA_HEIGHT_M = 6.5535 *)
Definition clamp_height (h : Z) : Z := if h <? 0 then 0 else if 65535 <? h then 65535 else h.
Definition encode_1006 (m : msg_1006) :=
  encode_fields ((12, 1006) :: fields_1005_base (m6_1005 m) ++ [(16, clamp_height (ant_height m))]).
(** the "counter, then for each character" sequence, e.g. encode.c:607-612 *)
Definition fields_string (s : list Z) : list field := (8, len s) :: map (fun c => (8, c)) s.
(** rtcm3_encode_1007_base, 1007, 1008: encode.c:602-643 *)
Definition fields_1007_base (m : msg_1007) : list field :=
  (12, m7_stn_id m) :: fields_string (ant_descriptor m) ++ [(8, ant_setup_id m)].
Definition encode_1007 (m : msg_1007) := encode_fields ((12, 1007) :: fields_1007_base m).
Definition encode_1008 (m : msg_1008) :=
  encode_fields ((12, 1008) :: fields_1007_base (m8_1007 m) ++ fields_string (ant_serial_num m)).
(** rtcm3_encode_1029: encode.c:735-763 *)
Definition encode_1029 (m : msg_1029) :=
  encode_fields ([(12, 1029); (12, m29_stn_id m); (16, mjd_num m); (17, utc_sec_of_day m); (7, unicode_chars m)]
                 ++ fields_string (utf8_code_units m)).
(** rtcm3_encode_1033: encode.c:765-813 *)
Definition encode_1033 (m : msg_1033) :=
  encode_fields ([(12, 1033); (12, m33_stn_id m)] ++ fields_string (m33_ant_descriptor m) ++ [(8, m33_ant_setup_id m)]
    ++ fields_string (m33_ant_serial_num m) ++ fields_string (rcv_descriptor m) ++ fields_string (rcv_fw_version m)
    ++ fields_string (rcv_serial_num m)).
(** rtcm3_encode_1230: encode.c:815-852. bias_indicator is written as 8 bits but the position advances by 1. *)
Definition bias_fields (m : msg_1230) : list field :=
  (if Z.testbit (fdma_signal_mask m) 3 then [(16, l1_ca m)] else []) ++
  (if Z.testbit (fdma_signal_mask m) 2 then [(16, l1_p m)] else []) ++
  (if Z.testbit (fdma_signal_mask m) 1 then [(16, l2_ca m)] else []) ++
  (if Z.testbit (fdma_signal_mask m) 0 then [(16, l2_p m)] else []).
Definition encode_1230 (m : msg_1230) (buff : list Z) : list Z * Z :=
  let '(b, bit) := put_fields buff 0 [(12, 1230); (12, m230_stn_id m)] in
  let b := setbitu b bit 8 (bias_indicator m) in
  let '(b, bit) := put_fields b (bit + 1) ([(3, 0); (4, fdma_signal_mask m)] ++ bias_fields m) in
  (b, byte_len bit).
(** rtcm3_encode_4062: encode.c:1201-1224 *)
Definition encode_4062 (m : msg_4062) :=
  encode_fields ([(12, 4062); (4, 0); (16, msg_type m); (16, sender_id m)] ++ fields_string (data m)).

(** *** decoders *)
Definition expect {A} (num : Z) (d : dec A) : dec A :=
  n <- get_u 12 ;; if n =? num then d else mismatch.
(** rtcm3_decode_1005_base: decode.c:554-574 *)
Definition decode_1005_base : dec msg_1005 :=
  a <- get_u 12 ;; b <- get_u 6 ;; c <- get_u 1 ;; d <- get_u 1 ;; e <- get_u 1 ;; f <- get_u 1 ;;
  x <- get_s 38 ;; o <- get_u 1 ;; _ <- skip 1 ;; y <- get_s 38 ;; q <- get_u 2 ;; z <- get_s 38 ;;
  ret (mk1005 a b c d e f x o y q z).
(** rtcm3_decode_1005_bitstream: decode.c:583-595 *)
Definition decode_1005 : dec msg_1005 := expect 1005 decode_1005_base.
(** rtcm3_decode_1006_bitstream: decode.c:605-621.  The result of decode_1005_base is ignored; fields not
    decoded keep whatever the caller's struct held, modelled by [garbage]. *)
Definition decode_1006 (garbage : msg_1005) : dec msg_1006 :=
  expect 1006 (b <- attempt decode_1005_base ;; h <- get_u 16 ;;
               ret (mk1006 (match b with Some b => b | None => garbage end) h)).
(** decode_string: decode.c:623-632 *)
Definition decode_string : dec (list Z) :=
  n <- get_u 8 ;; if RTCM_MAX_STRING_LEN <? n then fail else get_list (get_u 8) (Z.to_nat n).
(** rtcm3_decode_1007_base / 1007 / 1008: decode.c:634-701 *)
Definition decode_1007_base : dec msg_1007 :=
  a <- get_u 12 ;; s <- decode_string ;; i <- get_u 8 ;; ret (mk1007 a s i).
Definition decode_1007 : dec msg_1007 := expect 1007 decode_1007_base.
Definition decode_1008 : dec msg_1008 :=
  expect 1008 (m <- decode_1007_base ;; s <- decode_string ;; ret (mk1008 m s)).
(** rtcm3_decode_1029_bitstream: decode.c:841-865; the array has RTCM_1029_MAX_CODE_UNITS = 255 entries *)
Definition decode_1029 : dec msg_1029 :=
  expect 1029 (a <- get_u 12 ;; d <- get_u 16 ;; s <- get_u 17 ;; u <- get_u 7 ;; n <- get_u 8 ;;
               l <- get_list (get_u 8) (Z.to_nat n) ;; ret (mk1029 a d s u l)).
(** rtcm3_decode_1033_bitstream: decode.c:875-923 *)
Definition decode_1033 : dec msg_1033 :=
  expect 1033 (a <- get_u 12 ;; s1 <- decode_string ;; i <- get_u 8 ;; s2 <- decode_string ;; s3 <- decode_string ;;
               s4 <- decode_string ;; s5 <- decode_string ;; ret (mk1033 a s1 i s2 s3 s4 s5)).
(** rtcm3_decode_1230_bitstream: decode.c:932-977 *)
Definition get_bias (mask bit : Z) : dec Z := if Z.testbit mask bit then get_s 16 else ret 0.
Definition decode_1230 : dec msg_1230 :=
  expect 1230 (a <- get_u 12 ;; i <- get_u 1 ;; _ <- skip 3 ;; mask <- get_u 4 ;;
               b3 <- get_bias mask 3 ;; b2 <- get_bias mask 2 ;; b1 <- get_bias mask 1 ;; b0 <- get_bias mask 0 ;;
               ret (mk1230 a i mask b3 b2 b1 b0)).
(** rtcm3_decode_4062_bitstream: decode.c:1447-1475; data has 255 entries *)
Definition decode_4062 : dec msg_4062 :=
  expect 4062 (r <- get_u 4 ;; if negb (r =? 0) then fail else
               t <- get_u 16 ;; s <- get_u 16 ;; n <- get_u 8 ;; l <- get_list (get_u 8) (Z.to_nat n) ;;
               ret (mk4062 t s l)).
