(** Model of librtcm's broadcast ephemeris messages: c/librtcm/src/eph_encode.c and eph_decode.c, over rtcm_msg_eph
    (c/librtcm/include/rtcm3/messages.h:213-285).  All fields are integers there too.
    The union of Keplerian and GLONASS data is two records; tgd's two words are [e_tgd0], [e_tgd1] (gps_s = the first).
    rtcm_set_sign_magnitude_bit(n, v) is the pair of fields (1, sign), (n-1, magnitude) (bits.c:193-199).
    Trailing swiftnav_bitstream_remove calls, after which nothing is read, are omitted: they have no effect on the result. *)
From Verif Require Import Base Bitstring Bits_model Bitstream_model RtcmStation_model.

Record keph := mkkeph {
  e_sat : Z; e_wn : Z; e_toe : Z; e_ura : Z; e_fit : Z; e_health : Z; e_tgd0 : Z; e_tgd1 : Z; e_crc : Z; e_crs : Z; e_cuc : Z; e_cus : Z; e_cic : Z;
  e_cis : Z; e_dn : Z; e_m0 : Z; e_ecc : Z; e_sqrta : Z; e_omega0 : Z; e_omegadot : Z; e_w : Z; e_inc : Z; e_inc_dot : Z; e_af0 : Z; e_af1 : Z; e_af2
  : Z; e_toc : Z; e_iodc : Z; e_iode : Z; e_codeL2 : Z; e_L2_data_bit : bool }.
Record geph := mkgeph {
  g_sat : Z; g_ura : Z; g_fit : Z; g_health : Z; g_gamma : Z; g_tau : Z; g_d_tau : Z; g_t_b : Z; g_pos0 : Z; g_pos1 : Z; g_pos2 : Z; g_vel0 : Z;
  g_vel1 : Z; g_vel2 : Z; g_acc0 : Z; g_acc1 : Z; g_acc2 : Z; g_fcn : Z }.
Definition sm (n v : Z) : list field := [(1, if v <? 0 then 1 else 0); (n - 1, Z.abs v)].

(** rtcm3_encode_gps_eph: eph_encode.c:18-86 *)
Definition fields_gps (m : keph) : list field :=
    [(12, 1019); (6, e_sat m); (10, e_wn m); (4, e_ura m); (2, e_codeL2 m); (14, e_inc_dot m); (8, e_iode m); (16, e_toe m); (8, e_af2 m); (16, e_af1
    m); (22, e_af0 m); (10, e_iodc m); (16, e_crs m); (16, e_dn m); (32, e_m0 m); (16, e_cuc m); (32, e_ecc m); (16, e_cus m); (32, e_sqrta m); (16,
    e_toc m); (16, e_cic m); (32, e_omega0 m); (16, e_cis m); (32, e_inc m); (16, e_crc m); (32, e_w m); (24, e_omegadot m); (8, e_tgd0 m); (6,
    e_health m); (1, Z.b2z (e_L2_data_bit m)); (1, e_fit m)].
(** rtcm3_encode_glo_eph: eph_encode.c:88-171 *)
Definition fields_glo (m : geph) : list field :=
    [(12, 1020); (6, g_sat m); (5, g_fcn m); (1, 1); (1, 0); (2, g_fit m); (12, 0); (1, g_health m); (1, 0); (7, g_t_b m)] ++ sm 24 (g_vel0 m) ++ sm
    27 (g_pos0 m) ++ sm 5 (g_acc0 m) ++ sm 24 (g_vel1 m) ++ sm 27 (g_pos1 m) ++ sm 5 (g_acc1 m) ++ sm 24 (g_vel2 m) ++ sm 27 (g_pos2 m) ++ sm 5
    (g_acc2 m) ++ [(1, 0)] ++ sm 11 (g_gamma m) ++ [(2, 0); (1, g_health m)] ++ sm 22 (g_tau m) ++ sm 5 (g_d_tau m) ++ [(5, 0); (1, 0); (4, g_ura m);
    (11, 0); (2, 0); (32, 0); (32, 0); (15, 0)].
(** rtcm3_encode_bds_eph: eph_encode.c:173-237 *)
Definition fields_bds (m : keph) : list field :=
    [(12, 1042); (6, e_sat m); (13, e_wn m); (4, e_ura m); (14, e_inc_dot m); (5, e_iode m); (17, e_toc m); (11, e_af2 m); (22, e_af1 m); (24, e_af0
    m); (5, e_iodc m); (18, e_crs m); (16, e_dn m); (32, e_m0 m); (18, e_cuc m); (32, e_ecc m); (18, e_cus m); (32, e_sqrta m); (17, e_toe m); (18,
    e_cic m); (32, e_omega0 m); (18, e_cis m); (32, e_inc m); (18, e_crc m); (32, e_w m); (24, e_omegadot m); (10, e_tgd0 m); (10, e_tgd1 m); (1,
    e_health m)].
(** rtcm3_encode_gal_eph_common: eph_encode.c:245-297 *)
Definition fields_gal_common (m : keph) : list field :=
    [(6, e_sat m); (12, e_wn m); (10, e_iode m); (8, e_ura m); (14, e_inc_dot m); (14, e_toc m); (6, e_af2 m); (21, e_af1 m); (31, e_af0 m); (16,
    e_crs m); (16, e_dn m); (32, e_m0 m); (16, e_cuc m); (32, e_ecc m); (16, e_cus m); (32, e_sqrta m); (14, e_toe m); (16, e_cic m); (32, e_omega0
    m); (16, e_cis m); (32, e_inc m); (16, e_crc m); (32, e_w m); (24, e_omegadot m)].
(** rtcm3_encode_gal_eph_inav: eph_encode.c:306-329 *)
Definition fields_inav (m : keph) : list field :=
    [(12, 1046)] ++ fields_gal_common m ++ [(10, e_tgd0 m); (10, e_tgd1 m); (6, e_health m); (2, 0)].
(** rtcm3_encode_gal_eph_fnav: eph_encode.c:338-359 *)
Definition fields_fnav (m : keph) : list field :=
    [(12, 1045)] ++ fields_gal_common m ++ [(10, e_tgd0 m); (3, e_health m); (7, 0)].
Definition encode_gps (m : keph) := encode_fields (fields_gps m).
Definition encode_glo (m : geph) := encode_fields (fields_glo m).
Definition encode_bds (m : keph) := encode_fields (fields_bds m).
Definition encode_inav (m : keph) := encode_fields (fields_inav m).
Definition encode_fnav (m : keph) := encode_fields (fields_fnav m).

(** rtcm3_decode_gps_eph_bitstream: eph_decode.c:27-71 *)
Definition decode_gps : dec keph := expect 1019 (
    x_sat <- get_u 6 ;; x_wn <- get_u 10 ;; x_ura <- get_u 4 ;; x_codeL2 <- get_u 2 ;; x_inc_dot <- get_s 14 ;; x_iode <- get_u 8 ;; x_toc <- get_u 16
    ;; x_af2 <- get_s 8 ;; x_af1 <- get_s 16 ;; x_af0 <- get_s 22 ;; x_iodc <- get_u 10 ;; x_crs <- get_s 16 ;; x_dn <- get_s 16 ;; x_m0 <- get_s 32
    ;; x_cuc <- get_s 16 ;; x_ecc <- get_u 32 ;; x_cus <- get_s 16 ;; x_sqrta <- get_u 32 ;; x_toe <- get_u 16 ;; x_cic <- get_s 16 ;; x_omega0 <-
    get_s 32 ;; x_cis <- get_s 16 ;; x_inc <- get_s 32 ;; x_crc <- get_s 16 ;; x_w <- get_s 32 ;; x_omegadot <- get_s 24 ;; x_tgd0 <- get_s 8 ;;
    x_health <- get_u 6 ;; L2_data_bit <- get_u 1 ;; x_fit <- get_u 1 ;; ret (mkkeph x_sat x_wn x_toe x_ura x_fit x_health x_tgd0 0 x_crc x_crs x_cuc
    x_cus x_cic x_cis x_dn x_m0 x_ecc x_sqrta x_omega0 x_omegadot x_w x_inc x_inc_dot x_af0 x_af1 x_af2 x_toc x_iodc x_iode x_codeL2 (negb
    (L2_data_bit =? 0)))).
(** rtcm3_decode_qzss_eph_bitstream: eph_decode.c:80-121 *)
Definition decode_qzss : dec keph := expect 1044 (
    x_sat <- get_u 4 ;; x_toc <- get_u 16 ;; x_af2 <- get_s 8 ;; x_af1 <- get_s 16 ;; x_af0 <- get_s 22 ;; x_iode <- get_u 8 ;; x_crs <- get_s 16 ;;
    x_dn <- get_s 16 ;; x_m0 <- get_s 32 ;; x_cuc <- get_s 16 ;; x_ecc <- get_u 32 ;; x_cus <- get_s 16 ;; x_sqrta <- get_u 32 ;; x_toe <- get_u 16 ;;
    x_cic <- get_s 16 ;; x_omega0 <- get_s 32 ;; x_cis <- get_s 16 ;; x_inc <- get_s 32 ;; x_crc <- get_s 16 ;; x_w <- get_s 32 ;; x_omegadot <- get_s
    24 ;; x_inc_dot <- get_s 14 ;; _ <- skip 2 ;; x_wn <- get_u 10 ;; x_ura <- get_u 4 ;; x_health <- get_u 6 ;; x_tgd0 <- get_s 8 ;; x_iodc <- get_u
    10 ;; x_fit <- get_u 1 ;; ret (mkkeph x_sat x_wn x_toe x_ura x_fit x_health x_tgd0 0 x_crc x_crs x_cuc x_cus x_cic x_cis x_dn x_m0 x_ecc x_sqrta
    x_omega0 x_omegadot x_w x_inc x_inc_dot x_af0 x_af1 x_af2 x_toc x_iodc x_iode 0 false)).
(** rtcm3_decode_bds_eph_bitstream: eph_decode.c:253-296 *)
Definition decode_bds : dec keph := expect 1042 (
    x_sat <- get_u 6 ;; if x_sat <=? 5 then fail else x_wn <- get_u 13 ;; x_ura <- get_u 4 ;; x_inc_dot <- get_s 14 ;; x_iode <- get_u 5 ;; x_toc <-
    get_u 17 ;; x_af2 <- get_s 11 ;; x_af1 <- get_s 22 ;; x_af0 <- get_s 24 ;; x_iodc <- get_u 5 ;; x_crs <- get_s 18 ;; x_dn <- get_s 16 ;; x_m0 <-
    get_s 32 ;; x_cuc <- get_s 18 ;; x_ecc <- get_u 32 ;; x_cus <- get_s 18 ;; x_sqrta <- get_u 32 ;; x_toe <- get_u 17 ;; x_cic <- get_s 18 ;;
    x_omega0 <- get_s 32 ;; x_cis <- get_s 18 ;; x_inc <- get_s 32 ;; x_crc <- get_s 18 ;; x_w <- get_s 32 ;; x_omegadot <- get_s 24 ;; x_tgd0 <-
    get_s 10 ;; x_tgd1 <- get_s 10 ;; x_health <- get_u 1 ;; ret (mkkeph x_sat x_wn x_toe x_ura 0 x_health x_tgd0 x_tgd1 x_crc x_crs x_cuc x_cus x_cic
    x_cis x_dn x_m0 x_ecc x_sqrta x_omega0 x_omegadot x_w x_inc x_inc_dot x_af0 x_af1 x_af2 x_toc x_iodc x_iode 0 false)).
(** rtcm3_decode_gal_eph_common (eph_decode.c:304-332), then the fields of rtcm3_decode_gal_eph_inav_bitstream (341-365) or
    rtcm3_decode_gal_eph_fnav_bitstream (374-398).  health_bits is decoded as a signed number into a uint8_t. *)
Definition decode_gal_common (rest : dec (Z * Z * Z)) : dec keph :=
    x_sat <- get_u 6 ;; x_wn <- get_u 12 ;; x_iode <- get_u 10 ;; x_ura <- get_u 8 ;; x_inc_dot <- get_s 14 ;; x_toc <- get_u 14 ;; x_af2 <- get_s 6
    ;; x_af1 <- get_s 21 ;; x_af0 <- get_s 31 ;; x_crs <- get_s 16 ;; x_dn <- get_s 16 ;; x_m0 <- get_s 32 ;; x_cuc <- get_s 16 ;; x_ecc <- get_u 32
    ;; x_cus <- get_s 16 ;; x_sqrta <- get_u 32 ;; x_toe <- get_u 14 ;; x_cic <- get_s 16 ;; x_omega0 <- get_s 32 ;; x_cis <- get_s 16 ;; x_inc <-
    get_s 32 ;; x_crc <- get_s 16 ;; x_w <- get_s 32 ;; x_omegadot <- get_s 24 ;; t <- rest ;; let '(x_tgd0, x_tgd1, x_health) := t in ret (mkkeph
    x_sat x_wn x_toe x_ura 0 x_health x_tgd0 x_tgd1 x_crc x_crs x_cuc x_cus x_cic x_cis x_dn x_m0 x_ecc x_sqrta x_omega0 x_omegadot x_w x_inc
    x_inc_dot x_af0 x_af1 x_af2 x_toc 0 x_iode 0 false).
Definition decode_inav : dec keph := expect 1046 (decode_gal_common (a <- get_s 10 ;; b <- get_s 10 ;; h <- get_s 6 ;; ret (a, b, h mod 256))).
Definition decode_fnav : dec keph := expect 1045 (decode_gal_common (a <- get_s 10 ;; h <- get_s 3 ;; ret (a, 0, h mod 256))).
(** rtcm3_decode_glo_eph_bitstream: eph_decode.c:130-243 *)
Definition decode_glo : dec geph := expect 1020 (
    x_sat <- get_u 6 ;; x_fcn <- get_u 5 ;; _ <- skip 1 ;; _ <- skip 1 ;; x_fit <- get_u 2 ;; _ <- skip 12 ;; bn_msb <- get_u 1 ;; _ <- skip 1 ;;
    x_t_b <- get_u 7 ;; x_vel0 <- get_sm 24 ;; x_pos0 <- get_sm 27 ;; x_acc0 <- get_sm 5 ;; x_vel1 <- get_sm 24 ;; x_pos1 <- get_sm 27 ;; x_acc1 <-
    get_sm 5 ;; x_vel2 <- get_sm 24 ;; x_pos2 <- get_sm 27 ;; x_acc2 <- get_sm 5 ;; _ <- skip 1 ;; gamma <- get_sm 11 ;; _ <- skip 2 ;; mln3 <- get_u
    1 ;; x_tau <- get_sm 22 ;; d_tau <- get_sm 5 ;; _ <- skip 5 ;; _ <- skip 1 ;; x_ura <- get_u 4 ;; _ <- skip 11 ;; _ <- skip 2 ;; additional_data
    <- get_u 1 ;; mln5 <- (if additional_data =? 0 then ret 0 else _ <- skip 11 ;; _ <- skip 32 ;; _ <- skip 5 ;; _ <- skip 22 ;; get_u 1) ;; ret
    (mkgeph x_sat x_ura x_fit (Z.lor (Z.lor bn_msb mln3) mln5) gamma x_tau d_tau x_t_b x_pos0 x_pos1 x_pos2 x_vel0 x_vel1 x_vel2 x_acc0 x_acc1 x_acc2
    x_fcn)).
