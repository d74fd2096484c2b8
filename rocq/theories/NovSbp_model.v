(** NovAtel to SBP: the callbacks of c/nov2sbp/src/nov2sbp.cc with c/nov2sbp/src/swiftnav_conversion_helpers.cc and send_sbp_obs_messages.cc.
    The parser that calls them is Novatel_model.v ([nbody]: the fields in the order of its layouts, floating point fields as bit patterns).
    Arithmetic is IEEE double (single where the source has float).  None: undefined behaviour or a failed assertion.
    Parameters, external to /repo: [elt] encode_lock_time, [sid_valid], [geoid lat lon] get_geoid_offset(lat * D2R, lon * D2R), [cosf], [sinf] libm. *)
From Flocq Require Import Core IEEE754.Binary IEEE754.Bits.
From Verif Require Import Base Double_model Esf_model Ixcom_model Signals_model Novatel_model SbpEph_model.
Open Scope Z_scope.

(** packed_obs_content_t *)
Record nobs := mknobs { no_P : Z; no_Li : Z; no_Lf : Z; no_Di : Z; no_Df : Z; no_cn0 : Z; no_lock : Z; no_flags : Z; no_sat : Z; no_code : code }.
(** SBP messages handed to sbp_send_message *)
Inductive nout :=
| OTime (wn tow ns flags : Z)
| OObs (wn tow ns n_obs : Z) (l : list nobs)
| OPos (tow : Z) (lat lon height : dbl) (h_acc v_acc n_sats flags : Z)
| OVel (tow n e d flags : Z)
| OOrient (tow roll pitch yaw flags : Z)
| OAngRate (tow x y z flags : Z)
| OImuRaw (tow ax ay az gx gy gz : Z)
| OImuAux (imu_type temp conf : Z)
| OEph (s : skeph).
(** static timestamps_t time_tracker (nov2sbp.cc:39-52) and last_position_flags (swiftnav_conversion_helpers.cc:84-104) *)
Record nstate := mknstate { ns_time : Z * Z * Z * Z; ns_imu_wn : Z; ns_imu_tow : Z; ns_aux_wn : Z; ns_aux_tow : Z; ns_pf_tow : Z; ns_pf_flags : Z }.
Definition nstate0 : nstate := mknstate (0, 0, 0, 0) 0 0 0 0 (2 ^ 32 - 1) 0.
Definition u32 (z : Z) : Z := z mod 2 ^ 32.

(** round(), then saturation: double_to_s16, double_to_s32 (swiftnav_conversion_helpers.cc:29-55).  NaN: undefined conversion. *)
Definition clampz (lo hi z : Z) : Z := if z <=? lo then lo else if hi <=? z then hi else z.
Definition dsat (lo hi : Z) (x : dbl) : option Z :=
  match x with
  | B754_nan _ _ _ _ _ => None
  | B754_infinity _ _ s => Some (if s then lo else hi)
  | _ => match dround x with Some z => Some (clampz lo hi z) | None => None end
  end.
Definition sat16 := dsat (- 2 ^ 15) (2 ^ 15 - 1).
Definition sat32 := dsat (- 2 ^ 31) (2 ^ 31 - 1).
(** float_to_u16: swiftnav_conversion_helpers.cc:25-27; the conversion precedes MIN, so it is undefined out of range *)
Definition float_to_u16 (x : binary32) : option Z :=
  match dround (dofflt x) with Some z => if (0 <=? z) && (z <? 65536) then Some z else None | None => None end.
(** fmax on floats *)
Definition fmaxf (a b : binary32) : binary32 :=
  if is_nan 24 128 a then b else if is_nan 24 128 b then a else match Bcompare 24 128 a b with Some Lt => b | _ => a end.

(** degrees_to_radians, radians_to_degrees: swiftnav_conversion_helpers.cc:57-63 *)
Definition deg_to_rad (x : dbl) : dbl := ddiv (dmul x d_pi) (dofZ 180).
Definition rad_to_deg (x : dbl) : dbl := ddiv (dmul x (dofZ 180)) d_pi.

(** ** observations *)
(** convert_tracking_status_to_gnss_code: swiftnav_conversion_helpers.cc:720-807 *)
Definition tracking_code (ts : Z) : code :=
  let sys := Z.shiftr (Z.land ts 0x00070000) 16 in
  let sig := Z.shiftr (Z.land ts 0x03F00000) 21 in
  if sys =? 0 then (if sig =? 0 then GPS_L1CA else if sig =? 5 then GPS_L2P else CODE_INVALID)
  else if sys =? 1 then (if sig =? 0 then GLO_L1OF else if sig =? 1 then GLO_L2OF else CODE_INVALID)
  else CODE_INVALID.
Definition bit_set (ts m : Z) : bool := negb (Z.land ts m =? 0).
(** convert_tracking_status_to_navmeas_flags (swiftnav_conversion_helpers.cc:813-830) followed by nm_flags_to_sbp (send_sbp_obs_messages.cc:81-99);
    the NAV_MEAS_FLAG constants are distinct bits.  Flags: 1 code, 2 phase, 4 half cycle known, 8 Doppler. *)
Definition code_lock (ts : Z) : bool := bit_set ts 0x1000.
Definition obs_flags (ts : Z) : Z :=
  (if code_lock ts then 1 else 0) + (if bit_set ts (Z.lor 0x400 0x800) then 2 else 0) + (if bit_set ts 0x10000000 then 4 else 0) + (if code_lock ts then 8 else 0).
Inductive npack := NUb | NRefused | NPacked (o : nobs).
Definition dneg (x : dbl) : dbl := dsub (dofZ 0) x.

Section Nov.
Variables (elt : dbl -> Z) (sid_valid : Z -> code -> bool) (geoid : dbl -> dbl -> dbl) (cosf sinf : dbl -> dbl).

(** convert_rangecmp_record_to_mini_navmeas (swiftnav_conversion_helpers.cc:840-851) and pack_obs_content (send_sbp_obs_messages.cc:116-185).
    -L is exact; [dneg] differs from it only in the sign of zero. *)
Definition pack_obs (r : rcrec) : npack :=
  let P := ddiv (dofZ (rc_pseudorange r)) (dofZ 128) in
  let L := ddiv (dofZ (rc_ADR r)) (dofZ 256) in
  let D := ddiv (dofZ (rc_doppler r)) (dofZ 256) in
  let cn0 := dadd (dofZ (rc_CN0 r)) (dofZ 20) in
  let code := tracking_code (rc_tracking_status r) in
  if negb (sid_valid (rc_prn_slot r) code) then NRefused
  else match dround (dmul P (dofZ 50)) with
  | None => NUb
  | Some pfp =>
    if dltb P (dofZ 0) || (2 ^ 32 - 1 <? pfp) then NRefused
    else match dfloor (dneg L) with
    | None => NUb
    | Some li =>
      if (li <? - 2 ^ 31) || (2 ^ 31 - 1 <? li) then NRefused
      else match dround (dmul (dsub (dneg L) (dofZ li)) (dofZ 256)) with
      | None => NUb
      | Some lf =>
        if (256 <=? lf) && (li =? 2 ^ 31 - 1) then NUb
        else
        let '(li, lf) := if 256 <=? lf then (li + 1, 0) else (li, lf) in
        match dfloor D with
        | None => NUb
        | Some di =>
          if (di <? - 2 ^ 15) || (2 ^ 15 - 1 <? di) then NRefused
          else match dround (dmul (dsub D (dofZ di)) (dofZ 256)) with
          | None => NUb
          | Some df =>
            let '(di, df) := if 256 <=? df then ((if di =? 2 ^ 15 - 1 then - 2 ^ 15 else di + 1), 0) else (di, df) in
            let ok c := NPacked (mknobs pfp li lf di df c (elt (ddiv (dofZ (rc_lock_time r)) (dofZ 32))) (obs_flags (rc_tracking_status r)) (rc_prn_slot r) code) in
            if code_lock (rc_tracking_status r) then
              match dround (dmul cn0 (dofZ 4)) with
              | None => NUb
              | Some c => if dltb cn0 (dofZ 0) || (255 <? c) then NRefused else ok c
              end
            else ok 0
          end
        end
      end
    end
  end.
(** the inner loop of send_sbp_obs_messages (send_sbp_obs_messages.cc:224-238): refused records are skipped *)
Fixpoint pack_all (l : list rcrec) : option (list nobs) :=
  match l with
  | [] => Some []
  | r :: l => match pack_obs r, pack_all l with
              | NUb, _ | _, None => None
              | NRefused, Some os => Some os
              | NPacked o, Some os => Some (o :: os)
              end
  end.
(** round_time_nano (send_sbp_obs_messages.cc:53-63) of the time set in write_sbp_range_cmp (nov2sbp.cc:116-118); wn passes through s16 unchanged *)
Definition WEEK_MS : Z := 604800000.
Definition obs_time (h : nhdr) : option (Z * Z * Z) :=
  let tow := ddiv (dofZ (nh_ms h)) (dofZ 1000) in
  match dround (dmul tow (dofZ 1000)) with
  | None => None
  | Some t =>
    if (t <? 0) || (2 ^ 32 <=? t) then None
    else match dround (dmul (dsub tow (ddiv (dofZ t) (dofZ 1000))) (dofZ 1000000000)) with
    | None => None
    | Some ns =>
      if (ns <? - 2 ^ 31) || (2 ^ 31 <=? ns) then None
      else if WEEK_MS <=? t then Some ((nh_week h + 1) mod 65536, t - WEEK_MS, ns) else Some (nh_week h, t, ns)
    end
  end.
(** the outer loop: [k] messages left, number [count] next *)
Fixpoint obs_loop (t : Z * Z * Z) (total count : Z) (k : nat) (l : list rcrec) : option (list nout) :=
  match k with
  | O => Some []
  | S k => match pack_all (take 14 l), obs_loop t total (count + 1) k (drop 14 l) with
           | Some os, Some r => let '(wn, tow, ns) := t in Some (OObs wn tow ns ((total * 16 + count mod 16) mod 256) os :: r)
           | _, _ => None
           end
  end.
(** write_sbp_range_cmp (nov2sbp.cc:106-123) and send_sbp_obs_messages (send_sbp_obs_messages.cc:187-248).  Without records the header is made from
    GPS_TIME_UNKNOWN, whose tow is -1: (uint32_t)round(-1000.0) is undefined.  n_records <= 63 (Novatel_model.v). *)
Definition write_range_cmp (h : nhdr) (l : list rcrec) : option (list nout) :=
  if len l =? 0 then None
  else match obs_time h with
       | None => None
       | Some t => let total := Z.min ((len l + 13) / 14) 15 in obs_loop t total 0 (Z.to_nat total) l
       end.

(** ** position, velocity, attitude, ephemeris *)
(** get_position_flags: swiftnav_conversion_helpers.cc:287-341 *)
Definition position_flags (pos_type : Z) : Z :=
  if pos_type =? 0 then 0 else if pos_type =? 16 then 1 else if pos_type =? 17 then 2 else if pos_type =? 18 then 6 else if pos_type =? 34 then 3
  else if (pos_type =? 48) || (pos_type =? 50) || (pos_type =? 49) then 4
  else if pos_type =? 53 then 9 else if pos_type =? 52 then 14 else if pos_type =? 54 then 10 else if pos_type =? 55 then 11 else if pos_type =? 56 then 12
  else 1.
Definition fld (f : list Z) (i : Z) : Z := znth 0 i f.
Definition fd (f : list Z) (i : Z) : dbl := dofbits (fld f i).
Definition ff32 (f : list Z) (i : Z) : binary32 := fofbits (fld f i).
(** convert_header_to_gps_time, send_time_message: swiftnav_conversion_helpers.cc:617-631, nov2sbp.cc:83-96 *)
Definition send_time (st : nstate) (h : nhdr) : nstate * list nout :=
  let t := (nh_week h, u32 (nh_ms h), 0, 1) in
  (mknstate t (ns_imu_wn st) (ns_imu_tow st) (ns_aux_wn st) (ns_aux_tow st) (ns_pf_tow st) (ns_pf_flags st),
   let '(w, tw, ns, fl) := ns_time st in
   if (w =? nh_week h) && (tw =? u32 (nh_ms h)) && (ns =? 0) && (fl =? 1) then [] else [OTime (nh_week h) (u32 (nh_ms h)) 0 1]).
(** write_sbp_best_pos (nov2sbp.cc:148-165), convert_bestpos_to_pos_llh (swiftnav_conversion_helpers.cc:563-589) *)
Definition write_best_pos (st : nstate) (h : nhdr) (f : list Z) : option (nstate * list nout) :=
  let '(st1, ts) := send_time st h in
  let tow := u32 (nh_ms h) in
  let f1000 := Esf_model.fofZ 1000 0 in
  match float_to_u16 (fmul f1000 (ff32 f 9)), float_to_u16 (fmaxf (fmul f1000 (ff32 f 7)) (fmul f1000 (ff32 f 8))) with
  | Some v, Some hz =>
    let flags := position_flags (fld f 1) in
    Some (mknstate (ns_time st1) (ns_imu_wn st1) (ns_imu_tow st1) (ns_aux_wn st1) (ns_aux_tow st1) tow flags,
          ts ++ [OPos tow (fd f 2) (fd f 3) (dadd (fd f 4) (geoid (fd f 2) (fd f 3))) hz v (fld f 17) flags])
  | _, _ => None
  end.
(** write_sbp_best_vel (nov2sbp.cc:167-184), convert_bestvel_to_vel_ned (swiftnav_conversion_helpers.cc:594-612); negating INT32_MIN is undefined *)
Definition write_best_vel (st : nstate) (h : nhdr) (f : list Z) : option (nstate * list nout) :=
  let '(st1, ts) := send_time st h in
  let tow := u32 (nh_ms h) in
  let hs := dmul (dofZ 1000) (fd f 4) in
  match sat32 (dmul hs (cosf (deg_to_rad (fd f 5)))), sat32 (dmul hs (sinf (deg_to_rad (fd f 5)))), sat32 (dmul (dofZ 1000) (fd f 6)) with
  | Some n, Some e, Some v =>
    if v =? - 2 ^ 31 then None
    else Some (st1, ts ++ [OVel tow n e (- v) (if tow =? ns_pf_tow st1 then ns_pf_flags st1 else 0)])
  | _, _, _ => None
  end.
(** write_sbp_ins_att (nov2sbp.cc:186-200), convert_insatt_to_orient_euler (swiftnav_conversion_helpers.cc:856-871); INS_SOLUTION_GOOD = 3 *)
Definition write_ins_att (h : nhdr) (f : list Z) : option (list nout) :=
  match sat32 (dmul (fd f 2) (dofZ 1000000)), sat32 (dmul (fd f 3) (dofZ 1000000)), sat32 (dmul (fd f 4) (dofZ 1000000)) with
  | Some r, Some p, Some y => Some [OOrient (u32 (nh_ms h)) r p y (if fld f 5 =? 3 then 1 else 0)]
  | _, _, _ => None
  end.
(** (uint32_t)x *)
Definition cu32 (x : dbl) : option Z := match dtrunc x with Some z => if (0 <=? z) && (z <? 2 ^ 32) then Some z else None | None => None end.
Definition dsqrt : dbl -> dbl := b64_sqrt mode_NE.
(** write_sbp_gps_ephem (nov2sbp.cc:128-142), convert_gpsephem_to_ephemeris_gps (swiftnav_conversion_helpers.cc:645-682); the assertions toe, toc <= UINT32_MAX
    hold whenever the conversion is defined *)
Definition write_gps_ephem (f : list Z) : option (list nout) :=
  match cu32 (fd f 7), cu32 (fd f 24) with
  | Some toe, Some toc =>
    if (255 <? fld f 0) || (65535 <? fld f 5) then None
    else Some [OEph (mkskeph (fld f 0) 0 (fld f 5) toe (f32 (dsqrt (fd f 31))) 14400 true (fld f 2 mod 256) (f32 (fd f 25)) (f32 (dofZ 0))
      (f32 (fd f 16)) (f32 (fd f 15)) (f32 (fd f 13)) (f32 (fd f 14)) (f32 (fd f 17)) (f32 (fd f 18))
      (fd f 9) (fd f 10) (fd f 11) (dsqrt (fd f 8)) (fd f 21) (fd f 22) (fd f 12) (fd f 19) (fd f 20)
      (dofflt (f32 (fd f 26))) (dofflt (f32 (fd f 27))) (f32 (fd f 28)) (fld f 5) toc (fld f 3 mod 256) (fld f 23 mod 65536) 0)]
  | _, _ => None
  end.

(** ** inertial measurements *)
(** compute_imu_rate: swiftnav_conversion_helpers.cc:347-367.  week_cur is taken from the previous time, so the branch for a week change is never taken. *)
Definition compute_imu_rate (wn_prev tow_prev tow_cur : Z) : option dbl :=
  if negb (wn_prev =? 0) && negb (tow_prev =? 0) && negb (tow_cur =? 0) && (tow_prev <? tow_cur)
  then Some (ddiv (dofZ 1000) (dofZ (tow_cur - tow_prev))) else None.
(** get_imu_rate_from_type: swiftnav_conversion_helpers.cc:372-414 *)
Definition imu_rate_of_type (ty : Z) : option dbl :=
  if existsb (Z.eqb ty) [1; 4; 11; 12; 5; 27; 20; 28; 58] then Some (dofZ 100)
  else if existsb (Z.eqb ty) [32; 56; 41] then Some (dofZ 125)
  else if existsb (Z.eqb ty) [26; 13; 8; 33; 31; 61; 62] then Some (dofZ 200)
  else None.
(** the literals 0.1, 0.05, 0.3048, 0.008, 0.0151515, 0.2, 0.4, 1e-9, 2e-8, 9.806 *)
Definition c_0_1 := dofbits 0x3fb999999999999a.      Definition c_0_05 := dofbits 0x3fa999999999999a.
Definition c_0_3048 := dofbits 0x3fd381d7dbf487fd.   Definition c_0_008 := dofbits 0x3f80624dd2f1a9fc.
Definition c_0_0151515 := dofbits 0x3f8f07bfe7e1fc09. Definition c_0_2 := dofbits 0x3fc999999999999a.
Definition c_0_4 := dofbits 0x3fd999999999999a.      Definition c_1em9 := dofbits 0x3e112e0be826d695.
Definition c_2em8 := dofbits 0x3e55798ee2308c3a.     Definition c_9_806 := dofbits 0x40239cac083126e9.
(** ldexp (exact here) *)
Definition ldexp (x : dbl) (k : Z) : dbl := dmul x (dscale 1 k).
(** get_imu_scale_gyro: swiftnav_conversion_helpers.cc:420-484 *)
Definition gyro_scale (ty : Z) (rate : dbl) : option dbl :=
  if existsb (Z.eqb ty) [11; 5; 27; 20; 28; 12; 58] then Some (ldexp (dofZ 1) (-33))
  else if ty =? 33 then Some (ddiv c_0_1 (dmul (dofZ 3600) (dofZ 256)))
  else if ty =? 13 then Some (deg_to_rad (ddiv (ldexp c_0_1 (-8)) (dofZ 3600)))
  else if ty =? 8 then Some (ldexp (dofZ 1) (-19))
  else if ty =? 26 then Some c_1em9
  else if ty =? 31 then Some (deg_to_rad (ldexp (dofZ 720) (-31)))
  else if (ty =? 32) || (ty =? 56) then Some (deg_to_rad (ldexp (dofZ 1) (-21)))
  else if (ty =? 41) || (ty =? 62) then Some (deg_to_rad (ddiv (ddiv c_0_008 (dofZ 65536)) rate))
  else if ty =? 61 then Some (deg_to_rad (ddiv (ddiv c_0_0151515 (dofZ 65536)) (dofZ 200)))
  else None.
(** get_imu_scale_accel: swiftnav_conversion_helpers.cc:490-557; milligee_to_metres, feet_to_metres: 77-81 *)
Definition feet_to_metres (x : dbl) : dbl := dmul x c_0_3048.
Definition milligee_to_metres (x : dbl) : dbl := dmul (dmul x (dofZ 1000)) c_9_806.
Definition accel_scale (ty : Z) (rate : dbl) : option dbl :=
  if existsb (Z.eqb ty) [11; 5; 27; 20; 28] then Some (feet_to_metres (ldexp (dofZ 1) (-27)))
  else if ty =? 12 then Some (feet_to_metres (ldexp (dofZ 1) (-26)))
  else if ty =? 58 then Some (ldexp (dofZ 1) (-29))
  else if (ty =? 33) || (ty =? 13) then Some (ldexp c_0_05 (-15))
  else if ty =? 8 then Some (ldexp (dofZ 1) (-14))
  else if ty =? 26 then Some c_2em8
  else if ty =? 31 then Some (ldexp (dofZ 200) (-31))
  else if (ty =? 32) || (ty =? 56) then Some (ldexp (dofZ 1) (-22))
  else if (ty =? 41) || (ty =? 62) then Some (milligee_to_metres (ddiv (ddiv c_0_2 (dofZ 65536)) rate))
  else if ty =? 61 then Some (milligee_to_metres (ddiv (ddiv c_0_4 (dofZ 65536)) (dofZ 200)))
  else None.
Definition imu_rate (st : nstate) (h : nhdr) (ty : Z) : option dbl :=
  match compute_imu_rate (ns_imu_wn st) (ns_imu_tow st) (u32 (nh_ms h)) with Some r => Some r | None => imu_rate_of_type ty end.
(** value * gyro_scale * rate in micro-degrees per second; in counts of 125 deg/s / 32768; accelerations in counts of 8 g / 32768 *)
Definition gyro_udeg (n : Z) (g rate : dbl) : option Z := sat32 (dmul (rad_to_deg (dmul (dmul (dofZ n) g) rate)) (dofZ 1000000)).
Definition gyro_counts (n : Z) (g rate : dbl) : option Z := sat16 (ddiv (dmul (rad_to_deg (dmul (dmul (dofZ n) g) rate)) (dofZ 32768)) (dofZ 125)).
Definition acc_counts (n : Z) (a rate : dbl) : option Z := sat16 (ddiv (dmul (dmul (dmul (dofZ n) a) rate) (dofZ 32768)) (dmul (dofZ 8) c_9_806)).
Definition map3 (f : Z -> option Z) (x y z : Z) (k : Z -> Z -> Z -> list nout) : option (list nout) :=
  match f x, f y, f z with Some a, Some b, Some c => Some (k a b c) | _, _, _ => None end.
(** convert_rawimu_to_angular_rate: swiftnav_conversion_helpers.cc:879-911; None: undefined; Some []: it returns false.  The sign of the y value is changed
    (as in -(double)y; the sign of a zero does not matter). *)
Definition angular_rate (st : nstate) (h : nhdr) (f : list Z) : option (list nout) :=
  match imu_rate st h (fld f 1) with
  | None => Some []
  | Some rate => match gyro_scale (fld f 1) rate with
                 | None => Some []
                 | Some g => map3 (fun n => gyro_udeg n g rate) (fld f 10) (- fld f 9) (fld f 8) (fun x y z => [OAngRate (u32 (nh_ms h)) x y z 1])
                 end
  end.
(** convert_rawimu_to_imu_raw: swiftnav_conversion_helpers.cc:916-969 *)
Definition imu_raw (st : nstate) (h : nhdr) (f : list Z) : option (list nout) :=
  match imu_rate st h (fld f 1) with
  | None => Some []
  | Some rate => match gyro_scale (fld f 1) rate, accel_scale (fld f 1) rate with
                 | Some g, Some a =>
                     match map3 (fun n => acc_counts n a rate) (fld f 7) (- fld f 6) (fld f 5) (fun x y z => [OImuRaw (u32 (nh_ms h)) x y z 0 0 0]) with
                     | Some [OImuRaw t ax ay az _ _ _] =>
                         map3 (fun n => gyro_counts n g rate) (fld f 10) (- fld f 9) (fld f 8) (fun x y z => [OImuRaw t ax ay az x y z])
                     | _ => None
                     end
                 | _, _ => Some []
                 end
  end.
(** convert_rawimu_to_imu_aux: swiftnav_conversion_helpers.cc:974-993 *)
Definition imu_aux_due (st : nstate) (h : nhdr) : bool :=
  let cur := u32 (nh_ms h) in
  negb (negb (ns_aux_wn st =? 0) && negb (nh_week h =? 0) && negb (ns_aux_tow st =? 0) && negb (cur =? 0) && (cur <? u32 (ns_aux_tow st + 1000))).
(** write_sbp_raw_imu: nov2sbp.cc:202-250; the assertions on imu_info: swiftnav_conversion_helpers.cc:888-889, 928-929 *)
Definition write_raw_imu (st : nstate) (h : nhdr) (f : list Z) : option (nstate * list nout) :=
  if negb (Z.land (fld f 0) 3 =? 0) then None
  else match angular_rate st h f, imu_raw st h f with
       | Some a, Some r =>
           let due := imu_aux_due st h in
           Some (mknstate (ns_time st) (nh_week h) (u32 (nh_ms h)) (if due then nh_week h else ns_aux_wn st) (if due then u32 (nh_ms h) else ns_aux_tow st) (ns_pf_tow st) (ns_pf_flags st),
                 a ++ r ++ (if due then [OImuAux 1 0 0x42] else []))
       | _, _ => None
       end.

(** the callbacks registered in nov2sbp_main: nov2sbp.cc:291-298; GLOEPHEMERIS is not registered *)
Definition nov_step (st : nstate) (c : nhdr * nbody) : option (nstate * list nout) :=
  let '(h, b) := c in
  let same o := match o with Some l => Some (st, l) | None => None end in
  match b with
  | NRange l => same (write_range_cmp h l)
  | NFields f =>
      if nh_id h =? 7 then same (write_gps_ephem f)
      else if nh_id h =? 42 then write_best_pos st h f
      else if nh_id h =? 99 then write_best_vel st h f
      else if nh_id h =? 263 then same (write_ins_att h f)
      else if nh_id h =? 1462 then write_raw_imu st h f
      else Some (st, [])
  end.
Fixpoint nov_run (st : nstate) (cs : list (nhdr * nbody)) : option (nstate * list nout) :=
  match cs with
  | [] => Some (st, [])
  | c :: cs => match nov_step st c with
               | Some (st1, o1) => match nov_run st1 cs with Some (st2, o2) => Some (st2, o1 ++ o2) | None => None end
               | None => None
               end
  end.
End Nov.
