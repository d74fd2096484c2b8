(** Conversion of broadcast ephemerides between RTCM's integers and SBP's floating-point SI values:
    c/gnss_converters/src/rtcm3_sbp_ephemeris.c:103-390 and c/gnss_converters_extra/src/sbp_rtcm3_ephemeris.c.
    Arithmetic is IEEE double, with conversions to float where the source has them; a conversion to an integer type out of range is undefined: None.
    Parameters, because they are not in /repo (empty submodule libswiftnav):
      [c k]       the macro C_1_2Pk, a double literal for 2^-k;
      [adj w]     gps_adjust_week_cycle(w, GPS_WEEK_REFERENCE);
      [mw w s]    gps_time_sec_match_weeks for (week w, second s) and the state's time: the resolved week, None when it returns false
                  (rtcm3_sbp_ephemeris.c:103-114; the external part is gps_time_match_weeks_safe);
      [eps], [log2f] as in Tables_model.v.
    M_PI is the double of math.h. *)
From Flocq Require Import Core IEEE754.Binary IEEE754.Bits.
From Verif Require Import Base Double_model UbxObs_model Esf_model Ixcom_model Tables_model RtcmEph_model Time_model.
Open Scope Z_scope.

(** (float)d *)
Definition f32 (x : dbl) : binary32 :=
  match x with
  | B754_zero _ _ s => B754_zero 24 128 s
  | B754_infinity _ _ s => B754_infinity 24 128 s
  | B754_nan _ _ s _ _ => proj1_sig default_nan_pl32
  | B754_finite _ _ s m e _ => binary_normalize 24 128 eq_refl eq_refl mode_NE (cond_Zopp s (Zpos m)) e s
  end.
Definition d_pi : dbl := dofbits 0x400921fb54442d18.
Definition d_1em10 : dbl := dofbits 0x3ddb7cdfd9d7bdbb. (* the literal 1e-10 *)
(** (type)round(x) *)
Definition conv (lo hi : Z) (x : dbl) : option Z := match dround x with Some z => if (lo <=? z) && (z <? hi) then Some z else None | None => None end.
Definition r32 := conv (- 2 ^ 31) (2 ^ 31).
Definition r16 := conv (- 2 ^ 15) (2 ^ 15).
Definition r8 := conv (- 2 ^ 7) (2 ^ 7).
Definition ru32 := conv 0 (2 ^ 32).

(** sbp_msg_ephemeris_{gps,qzss,gal,bds}_t: the union of their fields.  tgd0: tgd / bgd_e1e5a / tgd1; tgd1: bgd_e1e5b / tgd2.
    af0 and af1 are float for GPS and QZSS, double for Galileo, double and float for BeiDou: a float is held as the double of equal value. *)
Record skeph := mkskeph {
  s_sat : Z; s_code : Z; s_toe_wn : Z; s_toe : Z; s_ura : binary32; s_fit : Z; s_valid : bool; s_health : Z;
  s_tgd0 : binary32; s_tgd1 : binary32; s_crs : binary32; s_crc : binary32; s_cuc : binary32; s_cus : binary32; s_cic : binary32; s_cis : binary32;
  s_dn : dbl; s_m0 : dbl; s_ecc : dbl; s_sqrta : dbl; s_omega0 : dbl; s_omegadot : dbl; s_w : dbl; s_inc : dbl; s_inc_dot : dbl;
  s_af0 : dbl; s_af1 : dbl; s_af2 : binary32; s_toc_wn : Z; s_toc : Z; s_iode : Z; s_iodc : Z; s_source : Z }.
(** sbp_msg_ephemeris_glo_t *)
Record sgeph := mksgeph {
  sg_sat : Z; sg_code : Z; sg_toe_wn : Z; sg_toe : Z; sg_ura : binary32; sg_fit : Z; sg_valid : bool; sg_health : Z;
  sg_gamma : binary32; sg_tau : binary32; sg_d_tau : binary32; sg_pos0 : dbl; sg_pos1 : dbl; sg_pos2 : dbl; sg_vel0 : dbl; sg_vel1 : dbl; sg_vel2 : dbl;
  sg_acc0 : binary32; sg_acc1 : binary32; sg_acc2 : binary32; sg_fcn : Z; sg_iod : Z }.

Section Conv.
Variables (c : Z -> dbl) (adj : Z -> Z) (mw : Z -> Z -> option Z) (eps : dbl) (log2f : binary32 -> binary32).

(** n * C_1_2Pk;  (float)(n * C_1_2Pk);  n * C_1_2Pk * M_PI *)
Definition qd (k n : Z) : dbl := dmul (dofZ n) (c k).
Definition qf (k n : Z) : binary32 := f32 (qd k n).
Definition qp (k n : Z) : dbl := dmul (qd k n) d_pi.
(** x / C_1_2Pk for a double and for a float x;  x / (C_1_2Pk * M_PI) *)
Definition ud (k : Z) (x : dbl) : dbl := ddiv x (c k).
Definition uf (k : Z) (x : binary32) : dbl := ddiv (dofflt x) (c k).
Definition up (k : Z) (x : dbl) : dbl := ddiv x (dmul (c k) d_pi).

(** rtcm3_gps_eph_to_sbp: rtcm3_sbp_ephemeris.c:116-171.  None: it returns false. *)
Definition gps_eph_to_sbp (m : keph) : option skeph :=
  match mw (adj (e_wn m)) (e_toe m * 16) with
  | None => None
  | Some wtoe =>
    match mw (adj (e_wn m)) (e_toc m * 16) with
    | None => None
    | Some wtoc => Some (mkskeph (e_sat m) 0 wtoe (e_toe m * 16) (ura_to_uri (e_ura m)) (decode_fit_interval_gps (e_fit m) (e_iodc m))
        (Z.land (e_iodc m) 255 =? e_iode m) (e_health m) (qf 31 (e_tgd0 m)) (f32 (dofZ 0))
        (qf 5 (e_crs m)) (qf 5 (e_crc m)) (qf 29 (e_cuc m)) (qf 29 (e_cus m)) (qf 29 (e_cic m)) (qf 29 (e_cis m))
        (qp 43 (e_dn m)) (qp 31 (e_m0 m)) (qd 33 (e_ecc m)) (qd 19 (e_sqrta m)) (qp 31 (e_omega0 m)) (qp 43 (e_omegadot m)) (qp 31 (e_w m)) (qp 31 (e_inc m)) (qp 43 (e_inc_dot m))
        (dofflt (qf 31 (e_af0 m))) (dofflt (qf 43 (e_af1 m))) (qf 55 (e_af2 m)) wtoc (e_toc m * 16) (e_iode m) (e_iodc m) 0)
    end
  end.
(** rtcm3_qzss_eph_to_sbp: rtcm3_sbp_ephemeris.c:173-224.  QZS_FIRST_PRN = 193.  The week is not resolved against the state's time. *)
Definition qzss_eph_to_sbp (m : keph) : skeph :=
  mkskeph ((e_sat m + 192) mod 256) 31 (adj (e_wn m)) (e_toe m * 16) (ura_to_uri (e_ura m)) (decode_fit_interval_gps (e_fit m) (e_iodc m))
        (e_iodc m =? e_iode m) (e_health m) (qf 31 (e_tgd0 m)) (f32 (dofZ 0))
        (qf 5 (e_crs m)) (qf 5 (e_crc m)) (qf 29 (e_cuc m)) (qf 29 (e_cus m)) (qf 29 (e_cic m)) (qf 29 (e_cis m))
        (qp 43 (e_dn m)) (qp 31 (e_m0 m)) (qd 33 (e_ecc m)) (qd 19 (e_sqrta m)) (qp 31 (e_omega0 m)) (qp 43 (e_omegadot m)) (qp 31 (e_w m)) (qp 31 (e_inc m)) (qp 43 (e_inc_dot m))
        (dofflt (qf 31 (e_af0 m))) (dofflt (qf 43 (e_af1 m))) (qf 55 (e_af2 m)) (adj (e_wn m)) (e_toc m * 16) (e_iode m) (e_iodc m) 0.
(** rtcm3_gal_eph_to_sbp: rtcm3_sbp_ephemeris.c:277-332; source 0: I/NAV, 1: F/NAV *)
Definition gal_eph_to_sbp (m : keph) (source : Z) : option skeph :=
  match mw (adj (e_wn m + 1024)) (e_toe m * 60) with
  | None => None
  | Some wtoe =>
    match mw (adj (e_wn m + 1024)) (e_toc m * 60) with
    | None => None
    | Some wtoc => Some (mkskeph (e_sat m) 14 wtoe (e_toe m * 60) (sisa_to_meters (e_ura m)) (4 * 3600)
        true (e_health m) (qf 32 (e_tgd0 m)) (qf 32 (e_tgd1 m))
        (qf 5 (e_crs m)) (qf 5 (e_crc m)) (qf 29 (e_cuc m)) (qf 29 (e_cus m)) (qf 29 (e_cic m)) (qf 29 (e_cis m))
        (qp 43 (e_dn m)) (qp 31 (e_m0 m)) (qd 33 (e_ecc m)) (qd 19 (e_sqrta m)) (qp 31 (e_omega0 m)) (qp 43 (e_omegadot m)) (qp 31 (e_w m)) (qp 31 (e_inc m)) (qp 43 (e_inc_dot m))
        (qd 34 (e_af0 m)) (qd 46 (e_af1 m)) (qf 59 (e_af2 m)) wtoc (e_toc m * 60) (e_iode m) (e_iode m) source)
    end
  end.
(** rtcm3_bds_eph_to_sbp: rtcm3_sbp_ephemeris.c:348-400 *)
Definition bds_eph_to_sbp (m : keph) : skeph :=
  let '(w1, s1) := time_from_bds (e_wn m) (e_toe m) 8 in
  let '(w2, s2) := time_from_bds (e_wn m) (e_toc m) 8 in
  mkskeph (e_sat m) 12 (adj w1) s1 (bds_ura_to_meters (e_ura m)) (3 * 3600)
        true (e_health m) (f32 (dmul (dofZ (e_tgd0 m)) d_1em10)) (f32 (dmul (dofZ (e_tgd1 m)) d_1em10))
        (qf 6 (e_crs m)) (qf 6 (e_crc m)) (qf 31 (e_cuc m)) (qf 31 (e_cus m)) (qf 31 (e_cic m)) (qf 31 (e_cis m))
        (qp 43 (e_dn m)) (qp 31 (e_m0 m)) (qd 33 (e_ecc m)) (qd 19 (e_sqrta m)) (qp 31 (e_omega0 m)) (qp 43 (e_omegadot m)) (qp 31 (e_w m)) (qp 31 (e_inc m)) (qp 43 (e_inc_dot m))
        (qd 33 (e_af0 m)) (dofflt (qf 50 (e_af1 m))) (qf 66 (e_af2 m)) (adj w2) s2 (e_iode m) (e_iodc m) 0.
(** rtcm3_glo_eph_to_sbp: rtcm3_sbp_ephemeris.c:226-275.  [rover], [leap]: the state's time and leap seconds.  None: it returns false. *)
Definition glo_eph_to_sbp (m : geph) (rover : gtime) (leap : option Z) : option sgeph :=
  match compute_glo_time (g_t_b m * 15 * 60 * 1000) rover leap with
  | (true, Some t) =>
    if wn t =? -1 then None
    else if g_sat m =? 0 then None
    else Some (mksgeph (g_sat m) 3 (wn t) (tow t / 1000) (glo_ft_to_meters (g_ura m)) (decode_fit_interval_glo (g_fit m)) true (g_health m)
      (qf 40 (g_gamma m)) (qf 30 (g_tau m)) (qf 30 (g_d_tau m))
      (dmul (qd 11 (g_pos0 m)) (dofZ 1000)) (dmul (qd 11 (g_pos1 m)) (dofZ 1000)) (dmul (qd 11 (g_pos2 m)) (dofZ 1000))
      (dmul (qd 20 (g_vel0 m)) (dofZ 1000)) (dmul (qd 20 (g_vel1 m)) (dofZ 1000)) (dmul (qd 20 (g_vel2 m)) (dofZ 1000))
      (f32 (dmul (qd 30 (g_acc0 m)) (dofZ 1000))) (f32 (dmul (qd 30 (g_acc1 m)) (dofZ 1000))) (f32 (dmul (qd 30 (g_acc2 m)) (dofZ 1000)))
      ((g_fcn m + 1) mod 256) (Z.land (g_t_b m * 15 * 60) 127))
  | _ => None
  end.

Notation "x <-- a ;; b" := (match a with Some x => b | None => None end) (at level 100, a at next level, right associativity).
(** the fields the three Keplerian conversions share: sbp_rtcm3_ephemeris.c:51-87, 200-232, 265-291 ([kc]: c_rs, c_rc; [kh]: the other harmonics).
    Result: the 15 integers in the order of the record. *)
Definition harmonics (kc kh : Z) (s : skeph) (k : Z -> Z -> Z -> Z -> Z -> Z -> option keph) : option keph :=
  crs <-- r32 (uf kc (s_crs s)) ;; crc <-- r32 (uf kc (s_crc s)) ;; cuc <-- r32 (uf kh (s_cuc s)) ;; cus <-- r32 (uf kh (s_cus s)) ;;
  cic <-- r32 (uf kh (s_cic s)) ;; cis <-- r32 (uf kh (s_cis s)) ;; k crs crc cuc cus cic cis.
Definition orbit (s : skeph) (k : Z -> Z -> Z -> Z -> Z -> Z -> Z -> Z -> Z -> option keph) : option keph :=
  dn <-- r16 (up 43 (s_dn s)) ;; m0 <-- r32 (up 31 (s_m0 s)) ;; ecc <-- ru32 (ud 33 (s_ecc s)) ;; sqrta <-- ru32 (ud 19 (s_sqrta s)) ;;
  omega0 <-- r32 (up 31 (s_omega0 s)) ;; omegadot <-- r32 (up 43 (s_omegadot s)) ;; w <-- r32 (up 31 (s_w s)) ;; inc <-- r32 (up 31 (s_inc s)) ;;
  inc_dot <-- r16 (up 43 (s_inc_dot s)) ;; k dn m0 ecc sqrta omega0 omegadot w inc inc_dot.
(** conversion of an int32_t result to the int16_t field af2 (implementation-defined modulo 2^16) *)
Definition wrap16 (z : Z) : Z := let r := z mod 2 ^ 16 in if r <? 2 ^ 15 then r else r - 2 ^ 16.
(** sbp_to_rtcm3_gps_eph: sbp_rtcm3_ephemeris.c:28-90; assertion on the code omitted *)
Definition sbp_to_gps_eph (s : skeph) : option keph :=
  ura <-- gps_uri_to_ura eps log2f (s_ura s) ;; tgd <-- r32 (uf 31 (s_tgd0 s)) ;;
  harmonics 5 29 s (fun crs crc cuc cus cic cis => orbit s (fun dn m0 ecc sqrta omega0 omegadot w inc inc_dot =>
  af0 <-- r32 (ud 31 (s_af0 s)) ;; af1 <-- r32 (ud 43 (s_af1 s)) ;; af2 <-- r32 (uf 55 (s_af2 s)) ;;
  Some (mkkeph (s_sat s) (s_toc_wn s mod 1024) (s_toe s / 16) ura (encode_fit_interval_gps (s_fit s)) (s_health s) tgd 0 crc crs cuc cus cic cis
    dn m0 ecc sqrta omega0 omegadot w inc inc_dot af0 af1 (wrap16 af2) (s_toc s / 16) (s_iodc s) (s_iode s) 1 false))).
(** sbp_to_rtcm3_gal_eph: sbp_rtcm3_ephemeris.c:240-293.  data.kepler.iode is assigned twice, the second time from iodc; data.kepler.iodc,
    fit_interval, codeL2 and L2_data_bit are not assigned (and not encoded): 0 here. *)
Definition sbp_to_gal_eph (s : skeph) : option keph :=
  ura <-- meters_to_sisa (s_ura s) ;; t0 <-- r32 (uf 32 (s_tgd0 s)) ;; t1 <-- r32 (uf 32 (s_tgd1 s)) ;;
  harmonics 5 29 s (fun crs crc cuc cus cic cis => orbit s (fun dn m0 ecc sqrta omega0 omegadot w inc inc_dot =>
  af0 <-- r32 (ud 34 (s_af0 s)) ;; af1 <-- r32 (ud 46 (s_af1 s)) ;; af2 <-- r16 (uf 59 (s_af2 s)) ;;
  Some (mkkeph (s_sat s) ((s_toe_wn s - 1024) mod 65536) (s_toe s / 60) ura 0 (s_health s) t0 t1 crc crs cuc cus cic cis
    dn m0 ecc sqrta omega0 omegadot w inc inc_dot af0 af1 af2 (s_toc s / 60) 0 (s_iodc s) 0 false))).
(** sbp_to_rtcm3_bds_eph: sbp_rtcm3_ephemeris.c:173-238 *)
Definition sbp_to_bds_eph (s : skeph) : option keph :=
  ura <-- bds_uri_to_ura eps log2f (s_ura s) ;; t0 <-- r32 (ddiv (dofflt (s_tgd0 s)) d_1em10) ;; t1 <-- r32 (ddiv (dofflt (s_tgd1 s)) d_1em10) ;;
  harmonics 6 31 s (fun crs crc cuc cus cic cis => orbit s (fun dn m0 ecc sqrta omega0 omegadot w inc inc_dot =>
  af0 <-- r32 (ud 33 (s_af0 s)) ;; af1 <-- r32 (ud 50 (s_af1 s)) ;; af2 <-- r16 (uf 66 (s_af2 s)) ;;
  let toe := snd (get_bds_wn_tow (s_toe_wn s) (s_toe s) 8) in
  let '(w2, toc) := get_bds_wn_tow (s_toc_wn s) (s_toc s) 8 in
  Some (mkkeph (s_sat s) w2 toe ura 0 (s_health s) t0 t1 crc crs cuc cus cic cis
    dn m0 ecc sqrta omega0 omegadot w inc inc_dot af0 af1 af2 toc (s_iodc s) (s_iode s) 0 false))).
(** sbp_to_rtcm3_glo_eph: sbp_rtcm3_ephemeris.c:111-153.  [leap]: the output state's leap seconds; [junk]: what the uninitialised t_b holds
    (sbp_rtcm3.c:1049 declares the structure without initialiser) when they are not known. *)
Definition sbp_to_glo_eph (s : sgeph) (leap : option Z) (junk : Z) : option geph :=
  ura <-- glo_uri_to_ura eps log2f (sg_ura s) ;;
  gamma <-- r16 (uf 40 (sg_gamma s)) ;; tau <-- r32 (uf 30 (sg_tau s)) ;; d_tau <-- r8 (uf 30 (sg_d_tau s)) ;;
  p0 <-- r32 (ddiv (ud 11 (sg_pos0 s)) (dofZ 1000)) ;; p1 <-- r32 (ddiv (ud 11 (sg_pos1 s)) (dofZ 1000)) ;; p2 <-- r32 (ddiv (ud 11 (sg_pos2 s)) (dofZ 1000)) ;;
  v0 <-- r32 (ddiv (ud 20 (sg_vel0 s)) (dofZ 1000)) ;; v1 <-- r32 (ddiv (ud 20 (sg_vel1 s)) (dofZ 1000)) ;; v2 <-- r32 (ddiv (ud 20 (sg_vel2 s)) (dofZ 1000)) ;;
  a0 <-- r32 (ddiv (uf 30 (sg_acc0 s)) (dofZ 1000)) ;; a1 <-- r32 (ddiv (uf 30 (sg_acc1 s)) (dofZ 1000)) ;; a2 <-- r32 (ddiv (uf 30 (sg_acc2 s)) (dofZ 1000)) ;;
  Some (mkgeph (sg_sat s) ura (encode_fit_interval_glo (sg_fit s)) (match leap with Some _ => sg_health s | None => 1 end) gamma tau d_tau
    (match leap with Some l => glo_t_b (sg_toe s) l | None => junk end) p0 p1 p2 v0 v1 v2 a0 a1 a2 ((sg_fcn s - 1) mod 256)).
End Conv.
