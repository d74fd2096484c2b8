(** C80: what the SBP observations made from a received legacy message (1002, 1004, 1010, 1012) must say, from the fields of the payload (RTCM 10403.3,
    tables 3.5-2 .. 3.5-13) and the signal biases alone; values over the reals (metres, cycles). *)
From Coq Require Import Reals.
From Verif Require Import Base Bitstring Bits_model RtcmStation_spec RtcmLegacy_model Signals_model Sbp2Rtcm_model MsmVal_spec.

(** the fields of one satellite: DF009/038 satellite, DF010/039 and DF016/046 code indicators, DF040 channel (+7), DF011/041 L1 range (0.02 m) over the ambiguity
    DF014/044, DF012/042 and DF018/048 phase range minus L1 range (0.5 mm), DF017/047 L2 range minus L1 range (0.02 m), DF013/043 and DF019/049 lock time
    indicators, DF015/045 and DF020/050 C/N0 (0.25 dB-Hz) *)
Record lsat := mklsat { f_sv : Z; f_code1 : Z; f_fcn : Z; f_pr : Z; f_ph1 : Z; f_lock1 : Z; f_amb : Z; f_cn1 : Z; f_code2 : Z; f_dpr : Z; f_ph2 : Z; f_lock2 : Z; f_cn2 : Z }.
Definition glo (s : sys) : bool := match s with GLO => true | GPS => false end.
(** [dual]: 1004 or 1012, which also carry L2 *)
Definition sat_layout (s : sys) (dual : bool) (x : lsat) : list field :=
  [(6, f_sv x); (1, f_code1 x)] ++ (if glo s then [(5, f_fcn x); (25, f_pr x)] else [(24, f_pr x)]) ++
  [(20, f_ph1 x); (7, f_lock1 x); (if glo s then 7 else 8, f_amb x); (8, f_cn1 x)] ++
  (if dual then [(2, f_code2 x); (14, f_dpr x); (20, f_ph2 x); (7, f_lock2 x); (8, f_cn2 x)] else []).
Definition sat_ok (s : sys) (x : lsat) : Prop :=
  ubits 6 (f_sv x) /\ ubits 1 (f_code1 x) /\ ubits 5 (f_fcn x) /\ ubits (if glo s then 25 else 24) (f_pr x) /\ sbits 20 (f_ph1 x) /\ ubits 7 (f_lock1 x) /\ ubits (if glo s then 7 else 8) (f_amb x) /\
  ubits 8 (f_cn1 x) /\ ubits 2 (f_code2 x) /\ sbits 14 (f_dpr x) /\ sbits 20 (f_ph2 x) /\ ubits 7 (f_lock2 x) /\ ubits 8 (f_cn2 x).
Definition number (s : sys) (dual : bool) : Z := match s, dual with GPS, false => 1002 | GPS, true => 1004 | GLO, false => 1010 | GLO, true => 1012 end.
(** DF003, DF004/034 (GPS time of week or GLONASS time of day, ms), DF005, DF006/035, DF007/036, DF008/037 *)
Definition header_layout (s : sys) (dual : bool) (h : hdr) (n : Z) : list field :=
  [(12, number s dual); (12, h_stn h); (if glo s then 27 else 30, h_tow h); (1, h_sync h); (5, n); (1, h_div h); (3, h_smooth h)].
Definition header_ok (s : sys) (h : hdr) : Prop :=
  ubits 12 (h_stn h) /\ 0 <= h_tow h < (if glo s then 86400000 else 604800000) /\ ubits 1 (h_sync h) /\ ubits 1 (h_div h) /\ ubits 3 (h_smooth h).
Definition carries_leg (s : sys) (dual : bool) (h : hdr) (l : list lsat) (p : list Z) : Prop :=
  header_ok s h /\ Forall (sat_ok s) l /\ len l <= 31 /\
  exists pad, bits_of_bytes p = fields_bits (header_layout s dual h (len l) ++ flat_map (sat_layout s dual) l) ++ pad.

(** SBP satellite and signal: GPS PRN 1-32; in a GPS message 40-58 are the SBAS satellites 120-138 (L1 only); GLONASS slot 1-24.  The GLONASS P code has no SBP signal and is
    reported as the open signal. *)
Definition signal_of (s : sys) (second : bool) (x : lsat) : option (Z * code) :=
  match s with
  | GPS =>
      if (1 <=? f_sv x) && (f_sv x <=? 32) then
        Some (f_sv x, if second then (if f_code2 x =? 0 then GPS_L2CM else GPS_L2P) else (if f_code1 x =? 0 then GPS_L1CA else GPS_L1P))
      else if (40 <=? f_sv x) && (f_sv x <=? 58) then (if second then None else Some (f_sv x + 80, SBAS_L1CA)) else None
  | GLO => if (1 <=? f_sv x) && (f_sv x <=? 24) then Some (f_sv x, if second then GLO_L2OF else GLO_L1OF) else None
  end.
(** the field values that mean "not available": DF011 80000h, DF017 2000h, DF012/018 80000h (two's complement); DF040 above 20: channel unknown *)
Definition range_sent (second : bool) (x : lsat) : Prop := f_pr x <> 0x80000 /\ (second = true -> f_dpr x <> - 2 ^ 13).
Definition phase_sent (second : bool) (x : lsat) : Prop := (if second then f_ph2 x else f_ph1 x) <> - 2 ^ 19.
Definition channel_known (s : sys) (x : lsat) : Prop := s = GLO -> f_fcn x <= 20.
(** lock time (s), table 3.4-2: 24 indicators with step 1, 24 with step 2, 4, 8, 16, 32; 127: at least 937 s *)
Definition lock_seconds (i : Z) : Z := if i =? 127 then 937 else let k := i / 24 in 24 * (2 ^ k - 1) + 2 ^ k * (i mod 24).

Open Scope R_scope.
Definition hertz_of (s : sys) (second : bool) (x : lsat) : R :=
  match s, second with
  | GPS, false => 1575420000 | GPS, true => 1227600000
  | GLO, false => 1602000000 + IZR (f_fcn x - 7) * 562500 | GLO, true => 1246000000 + IZR (f_fcn x - 7) * 437500
  end.
Definition l1_metres (s : sys) (x : lsat) : R := IZR (f_pr x) / 50 + IZR (f_amb x) * (if glo s then 2 else 1) * (C_M_S / 1000).
Definition metres_of (s : sys) (second : bool) (x : lsat) : R := l1_metres s x + (if second then IZR (f_dpr x) / 50 else 0).
Definition cycles_of (s : sys) (second : bool) (x : lsat) : R := (l1_metres s x + IZR (if second then f_ph2 x else f_ph1 x) / 2000) * hertz_of s second x / C_M_S.
(** an SBP pseudorange is not negative *)
Definition holdable (bias : code -> R) (s : sys) (second : bool) (x : lsat) : Prop :=
  forall sat k, signal_of s second x = Some (sat, k) -> range_sent second x -> phase_sent second x -> 0 <= metres_of s second x + bias k.
(** 2 cm and 1/256 cycle resolution; the last terms cover double precision rounding *)
Definition leg_says (bias : code -> R) (s : sys) (second : bool) (x : lsat) (sat : Z) (k : code) (num : Z) (o : pobs) : Prop :=
  o_sat o = sat /\ o_code o = num /\ o_flags o = 7%Z /\ o_Di o = 0%Z /\ o_Df o = 0%Z /\
  (0 <= o_P o < 2 ^ 32)%Z /\ Rabs (IZR (o_P o) / 50 - (metres_of s second x + bias k)) <= / 100 + / 1000000 /\
  (- 2 ^ 31 <= o_Li o < 2 ^ 31)%Z /\ (0 <= o_Lf o < 256)%Z /\ Rabs (IZR (o_Li o) + IZR (o_Lf o) / 256 - cycles_of s second x) <= / 512 + / 100000 /\
  o_cn0 o = (if second then f_cn2 x else f_cn1 x) /\
  let t := (1000 * lock_seconds (if second then f_lock2 x else f_lock1 x))%Z in
  (0 <= o_lock o <= 15 /\ (o_lock o = 0 -> t < 32) /\ (0 < o_lock o -> 2 ^ (o_lock o + 4) <= t) /\ (0 < o_lock o < 15 -> t < 2 ^ (o_lock o + 5)))%Z.
Close Scope R_scope.
(** what becomes of a signal of a satellite: reported iff satellite, range, phase and (GLONASS) channel are given *)
Definition leg_outcome (bias : code -> R) (num_of : code -> Z) (s : sys) (second : bool) (x : lsat) (r : option pobs) : Prop :=
  match r with
  | Some o => exists sat k, signal_of s second x = Some (sat, k) /\ range_sent second x /\ phase_sent second x /\ channel_known s x /\ leg_says bias s second x sat k (num_of k) o
  | None => signal_of s second x = None \/ ~ range_sent second x \/ ~ phase_sent second x \/ ~ channel_known s x
  end.
(** a satellite the receiver treats as the standard says; see the refuted cases for the others *)
Definition regular (s : sys) (dual : bool) (x : lsat) : Prop :=
  f_pr x <> 0x80000 /\ (dual = true -> channel_known s x \/ f_dpr x = - 2 ^ 13 \/ f_ph2 x = - 2 ^ 19 \/ signal_of s true x = None).
Definition sat_outcome bias num_of (s : sys) (dual : bool) (x : lsat) (r : option pobs * option pobs) : Prop :=
  leg_outcome bias num_of s false x (fst r) /\ (if dual then leg_outcome bias num_of s true x (snd r) else snd r = None).
