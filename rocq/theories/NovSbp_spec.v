(** Specification vocabulary for C59-C61 (NovAtel to SBP): only the record types of the models are used. *)
From Coq Require Import Reals.
From Flocq Require Import Core IEEE754.Binary IEEE754.Bits.
From Verif Require Import Base Double_model Signals_model Novatel_model SbpEph_model SbpEph_spec NovSbp_model.
Open Scope Z_scope.

(** ** observations (C59) *)
(** the ranges of the bit fields of a RANGECMP record *)
Definition range_fields (r : rcrec) : Prop :=
  0 <= rc_tracking_status r < 2 ^ 32 /\ - 2 ^ 27 <= rc_doppler r < 2 ^ 27 /\ 0 <= rc_pseudorange r < 2 ^ 36 /\ - 2 ^ 31 <= rc_ADR r < 2 ^ 31 /\
  0 <= rc_prn_slot r < 256 /\ 0 <= rc_lock_time r < 2 ^ 21 /\ 0 <= rc_CN0 r < 32.
(** bit fields of the channel tracking status: bits 16-18 the system, 21-25 the signal, 12 code locked, 10 phase lock, 11 parity known, 28 half cycle *)
Definition nov_system (r : rcrec) : Z := rc_tracking_status r / 2 ^ 16 mod 8.
Definition nov_signal (r : rcrec) : Z := rc_tracking_status r / 2 ^ 21 mod 32.
Inductive nov_code : Z -> Z -> code -> Prop :=
| nc_gps_l1 : nov_code 0 0 GPS_L1CA
| nc_gps_l2p : nov_code 0 5 GPS_L2P
| nc_glo_l1 : nov_code 1 0 GLO_L1OF
| nc_glo_l2 : nov_code 1 1 GLO_L2OF.
Definition flag (b : bool) (w : Z) : Z := if b then w else 0.
(** [o] reports what [r] measured.  P: 2 cm against 1/128 m, to the nearest; L: 1/256 cycle, sign reversed; D: 1/256 Hz; C/N0: 1/4 dB-Hz; lock time: 1/32 s, through the
    encoding [elt] of SBP *)
Definition carries (elt : dbl -> Z) (r : rcrec) (o : nobs) : Prop :=
  let ts := rc_tracking_status r in
  2 * Z.abs (128 * no_P o - 50 * rc_pseudorange r) <= 128 /\ 0 <= no_P o < 2 ^ 32 /\
  256 * no_Li o + no_Lf o = - rc_ADR r /\ 0 <= no_Lf o < 256 /\ - 2 ^ 31 <= no_Li o < 2 ^ 31 /\
  256 * no_Di o + no_Df o = rc_doppler r /\ 0 <= no_Df o < 256 /\ - 2 ^ 15 <= no_Di o < 2 ^ 15 /\
  no_cn0 o = (if Z.testbit ts 12 then 4 * (rc_CN0 r + 20) else 0) /\ 0 <= no_cn0 o < 256 /\
  (exists x, dexact x (scaled (rc_lock_time r) 5) /\ no_lock o = elt x) /\
  no_sat o = rc_prn_slot r /\
  (nov_code (nov_system r) (nov_signal r) (no_code o) \/ no_code o = CODE_INVALID /\ forall c, ~ nov_code (nov_system r) (nov_signal r) c) /\
  no_flags o = flag (Z.testbit ts 12) 1 + flag (Z.testbit ts 10 || Z.testbit ts 11) 2 + flag (Z.testbit ts 28) 4 + flag (Z.testbit ts 12) 8.
(** a record that fits an SBP observation: a known signal, a pseudorange below 2^32 * 2 cm, a Doppler of 16 bits *)
Definition sendable (sid_valid : Z -> code -> bool) (code_of : rcrec -> code) (r : rcrec) : bool :=
  sid_valid (rc_prn_slot r) (code_of r) && (50 * rc_pseudorange r + 64 <? 128 * 2 ^ 32) && (- 2 ^ 23 <=? rc_doppler r) && (rc_doppler r <? 2 ^ 23).
Definition code_of (r : rcrec) : code :=
  match nov_system r, nov_signal r with 0, 0 => GPS_L1CA | 0, 5 => GPS_L2P | 1, 0 => GLO_L1OF | 1, 1 => GLO_L2OF | _, _ => CODE_INVALID end.
Definition obs_in (m : nout) : list nobs := match m with OObs _ _ _ _ l => l | _ => [] end.

(** ** position, velocity, attitude, ephemeris (C60) *)
(** the last time message of a stream *)
Fixpoint last_time (out : list nout) : option (Z * Z * Z * Z) :=
  match out with
  | [] => None
  | m :: out => match last_time out with
                | Some t => Some t
                | None => match m with OTime w t ns f => Some (w, t, ns, f) | _ => None end
                end
  end.
Definition is_time (m : nout) : bool := match m with OTime _ _ _ _ => true | _ => false end.
(** the value of a double or float field of the input *)
Definition dval (f : list Z) (i : Z) : R := B2R 53 1024 (dofbits (znth 0 i f)).
Definition fval (f : list Z) (i : Z) : R := B2R 24 128 (fofbits (znth 0 i f)).
Definition dfinite (f : list Z) (i : Z) : Prop := is_finite 53 1024 (dofbits (znth 0 i f)) = true.
Definition ffinite (f : list Z) (i : Z) : Prop := is_finite 24 128 (fofbits (znth 0 i f)) = true.
Definition Rclamp (lo hi : Z) (v : R) : R := Rmax (IZR lo) (Rmin (IZR hi) v).
(** [n] is [v] to the nearest, limited to 32 (16) bits, up to [eps] *)
Definition near32 (n : Z) (v eps : R) : Prop := - 2 ^ 31 <= n < 2 ^ 31 /\ (Rabs (IZR n - Rclamp (- 2 ^ 31) (2 ^ 31 - 1) v) <= / 2 + eps)%R.
Definition near16 (n : Z) (v eps : R) : Prop := - 2 ^ 15 <= n < 2 ^ 15 /\ (Rabs (IZR n - Rclamp (- 2 ^ 15) (2 ^ 15 - 1) v) <= / 2 + eps)%R.
(** the SBP position mode for a NovAtel position type: none, fixed position, fixed height, ..., as the code assigns them *)
Inductive pos_mode : Z -> Z -> Prop :=
| pm_none : pos_mode 0 0 | pm_single : pos_mode 16 1 | pm_psrdiff : pos_mode 17 2 | pm_waas : pos_mode 18 6 | pm_nfloat : pos_mode 34 3
| pm_l1int : pos_mode 48 4 | pm_nint : pos_mode 50 4 | pm_wide : pos_mode 49 4
| pm_ins_psrsp : pos_mode 53 9 | pm_ins_sbas : pos_mode 52 14 | pm_ins_psrdiff : pos_mode 54 10 | pm_ins_float : pos_mode 55 11 | pm_ins_fixed : pos_mode 56 12.
(** an accurate trigonometric function: within 2^-52 for angles of up to two turns *)
Definition accurate (f : dbl -> dbl) (g : R -> R) : Prop :=
  forall x, is_finite 53 1024 x = true -> (Rabs (B2R 53 1024 x) <= 13)%R -> is_finite 53 1024 (f x) = true /\ (Rabs (B2R 53 1024 (f x) - g (B2R 53 1024 x)) <= / 4503599627370496)%R.
Definition degrees (v : R) : R := (v * PI / 180)%R.
(** [n] is [v] to the nearest integer, up to [eps] *)
Definition rounds (n : Z) (v eps : R) : Prop := (Rabs (IZR n - v) <= / 2 + eps)%R.
Definition ordinary (v : R) : Prop := v = 0%R \/ (/ IZR (2 ^ 110) <= Rabs v <= IZR (2 ^ 90))%R.
(** the fields of GPSEPHEM and what becomes of them: [same]: the double itself; [single]: the float nearest to it *)
Definition same (x : dbl) (f : list Z) (i : Z) : Prop := x = dofbits (znth 0 i f).
Definition single (x : binary32) (f : list Z) (i : Z) : Prop := fclose x (dval f i).
Definition eph_reports (f : list Z) (s : skeph) : Prop :=
  s_sat s = znth 0 0 f /\ s_code s = 0 /\ s_toe_wn s = znth 0 5 f /\ s_toc_wn s = znth 0 5 f /\
  (IZR (s_toe s) <= dval f 7 < IZR (s_toe s) + 1)%R /\ (IZR (s_toc s) <= dval f 24 < IZR (s_toc s) + 1)%R /\
  s_fit s = 14400 /\ s_valid s = true /\ s_health s = znth 0 2 f mod 256 /\ s_iode s = znth 0 3 f mod 256 /\ s_iodc s = znth 0 23 f mod 65536 /\
  fclose (s_ura s) (sqrt (dval f 31)) /\ (Rabs (B2R 53 1024 (s_sqrta s) - sqrt (dval f 8)) <= / 4503599627370496 * sqrt (dval f 8))%R /\
  single (s_tgd0 s) f 25 /\ single (s_crs s) f 16 /\ single (s_crc s) f 15 /\ single (s_cuc s) f 13 /\ single (s_cus s) f 14 /\ single (s_cic s) f 17 /\ single (s_cis s) f 18 /\
  same (s_dn s) f 9 /\ same (s_m0 s) f 10 /\ same (s_ecc s) f 11 /\ same (s_w s) f 12 /\ same (s_inc s) f 19 /\ same (s_inc_dot s) f 20 /\
  same (s_omega0 s) f 21 /\ same (s_omegadot s) f 22 /\
  (exists x, s_af0 s = dofflt x /\ single x f 26) /\ (exists x, s_af1 s = dofflt x /\ single x f 27) /\ single (s_af2 s) f 28.

(** ** inertial measurements (C61) *)
(** scale factors of the RAWIMUSX documentation: radians, and metres per second, per unit and sample; [rate] samples per second *)
Inductive gyro_lsb : Z -> R -> R -> Prop :=
| gl_honeywell ty rate : In ty [5; 11; 12; 20; 27; 28; 58] -> gyro_lsb ty rate (/ IZR (2 ^ 33))
| gl_kvh1750 rate : gyro_lsb 33 rate (1 / 10 / (3600 * 256))
| gl_fsas rate : gyro_lsb 13 rate (degrees (1 / 10 / 256 / 3600))
| gl_ln200 rate : gyro_lsb 8 rate (/ IZR (2 ^ 19))
| gl_isa100c rate : gyro_lsb 26 rate (1 / 1000000000)
| gl_adis rate : gyro_lsb 31 rate (degrees (720 / IZR (2 ^ 31)))
| gl_stim300 ty rate : ty = 32 \/ ty = 56 -> gyro_lsb ty rate (degrees (/ IZR (2 ^ 21)))
| gl_g320 ty rate : ty = 41 \/ ty = 62 -> gyro_lsb ty rate (degrees (8 / 1000 / 65536 / rate))
| gl_g370 rate : gyro_lsb 61 rate (degrees (151515 / 10000000 / 65536 / 200)).
Definition gravity : R := (9806 / 1000)%R.
Inductive accel_lsb : Z -> R -> R -> Prop :=
| al_honeywell ty rate : In ty [5; 11; 20; 27; 28] -> accel_lsb ty rate (3048 / 10000 / IZR (2 ^ 27))
| al_ag62 rate : accel_lsb 12 rate (3048 / 10000 / IZR (2 ^ 26))
| al_hg4930 rate : accel_lsb 58 rate (/ IZR (2 ^ 29))
| al_optical ty rate : ty = 33 \/ ty = 13 -> accel_lsb ty rate (5 / 100 / IZR (2 ^ 15))
| al_ln200 rate : accel_lsb 8 rate (/ IZR (2 ^ 14))
| al_isa100c rate : accel_lsb 26 rate (2 / 100000000)
| al_adis rate : accel_lsb 31 rate (200 / IZR (2 ^ 31))
| al_stim300 ty rate : ty = 32 \/ ty = 56 -> accel_lsb ty rate (/ IZR (2 ^ 22)).
(** the Epson units: 0.2 (0.4) / 65536 / rate milli-g *)
Inductive epson_lsb : Z -> R -> R -> Prop :=
| el_g320 ty rate : ty = 41 \/ ty = 62 -> epson_lsb ty rate (2 / 10 / 65536 / rate * (gravity / 1000))
| el_g370 rate : epson_lsb 61 rate (4 / 10 / 65536 / 200 * (gravity / 1000)).
(** nominal sampling rates *)
Inductive nominal : Z -> R -> Prop :=
| no_100 ty : In ty [1; 4; 5; 11; 12; 20; 27; 28; 58] -> nominal ty 100
| no_125 ty : In ty [32; 41; 56] -> nominal ty 125
| no_200 ty : In ty [8; 13; 26; 31; 33; 61; 62] -> nominal ty 200.
(** the header of the last IMU log *)
Fixpoint last_imu (cs : list (nhdr * nbody)) : option nhdr :=
  match cs with
  | [] => None
  | (h, b) :: cs => match last_imu cs with
                    | Some h' => Some h'
                    | None => match b with NFields _ => if nh_id h =? 1462 then Some h else None | _ => None end
                    end
  end.
(** the sampling rate assumed for an IMU log: from the time since the previous one of the same week, else nominal *)
Definition sampling (cs : list (nhdr * nbody)) (h : nhdr) (ty : Z) (rate : R) : Prop :=
  match last_imu cs with
  | Some h0 => if negb (nh_week h0 =? 0) && (0 <? nh_ms h0) && (nh_ms h0 <? nh_ms h) then rate = (1000 / IZR (nh_ms h - nh_ms h0))%R else nominal ty rate
  | None => nominal ty rate
  end.
(** micro-degrees per second, and units of 125 deg/s / 32768 and 8 g / 32768, for a measurement of [n] units *)
Definition udeg_per_s (n : Z) (G rate : R) : R := (IZR n * G * rate * 180 / PI * 1000000)%R.
Definition gyro_units (n : Z) (G rate : R) : R := (IZR n * G * rate * 180 / PI * 32768 / 125)%R.
Definition accel_units (n : Z) (A rate : R) : R := (IZR n * A * rate * 32768 / (8 * gravity))%R.
