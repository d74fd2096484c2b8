(** C62-C64: what the SBP messages made from UBX navigation messages should say *)
From Coq Require Import Reals.
From Flocq Require Import Core IEEE754.Binary IEEE754.Bits.
From Verif Require Import Base Double_model Double_proofs Esf_proofs Near_proofs Ixcom_model Signals_model UbxMsg_model UbxVar_model UbxNav_model.
Open Scope Z_scope.

(** the fix modes of SBP positions *)
Definition SBP_INVALID := 0. Definition SBP_SPP := 1. Definition SBP_DGNSS := 2. Definition SBP_FLOAT := 3. Definition SBP_FIXED := 4. Definition SBP_DR := 5.
(** UBX-NAV-PVT: fixType 0 none, 1 dead reckoning only, 2 2D, 3 3D, 4 GNSS and dead reckoning, 5 time only; flags: bit 1 differential corrections, bits 6-7 carrier phase 0 no, 1 float, 2 fixed *)
Inductive pvt_mode : Z -> Z -> Z -> Prop :=
| pm_none ft flags : ~ 1 <= ft <= 4 -> pvt_mode ft flags SBP_INVALID
| pm_dr flags : pvt_mode 1 flags SBP_DR
| pm_spp ft flags : 2 <= ft <= 4 -> Z.testbit flags 1 = false -> pvt_mode ft flags SBP_SPP
| pm_dgnss ft flags : 2 <= ft <= 4 -> Z.testbit flags 1 = true -> flags / 64 = 0 -> pvt_mode ft flags SBP_DGNSS
| pm_float ft flags : 2 <= ft <= 4 -> Z.testbit flags 1 = true -> flags / 64 = 1 -> pvt_mode ft flags SBP_FLOAT
| pm_fixed ft flags : 2 <= ft <= 4 -> Z.testbit flags 1 = true -> flags / 64 = 2 -> pvt_mode ft flags SBP_FIXED
| pm_reserved ft flags : 2 <= ft <= 4 -> Z.testbit flags 1 = true -> flags / 64 = 3 -> pvt_mode ft flags SBP_INVALID.
(** inertial sensors used *)
Definition uses_ins (ft : Z) : bool := (ft =? 1) || (ft =? 4).
(** the flags byte of an SBP position: mode in bits 0-2, INS in bit 3 *)
Definition pos_flags (ft uflags fl : Z) : Prop := exists mode, pvt_mode ft uflags mode /\ fl = mode + (if uses_ins ft then 8 else 0).
(** the double is the integer times 10^-k, to within one part in 2^49 *)
Definition decimal (x : dbl) (n : Z) (k : Z) : Prop := dfin x = true /\ near (dR x) (IZR n / IZR (10 ^ k)) (/ IZR (2 ^ 49)).
(** the float (as a double) is the integer times 10^-5, to within one part in 2^23 *)
Definition decimal32 (x : binary32) (n : Z) : Prop := dfin (dofflt x) = true /\ near (dR (dofflt x)) (IZR n / 100000) (/ IZR (2 ^ 23)).
(** frames of a given class and id *)
Definition is_frame (c i : Z) (e : uev) : Prop := exists r, e = EFrame (c :: i :: r).

(** NAV-SAT: the satellites in the messages sent, in order *)
Fixpoint azels (l : list uout) : list (Z * code * Z * Z) := match l with [] => [] | UAzEl a :: l => a ++ azels l | _ :: l => azels l end.
Fixpoint states (l : list uout) : list (Z * code * Z) := match l with [] => [] | UMeas a :: l => a ++ states l | _ :: l => states l end.
(** gnssId: 0 GPS, 1 SBAS, 2 Galileo, 3 BeiDou, 5 QZSS, 6 GLONASS; the first signal of each *)
Inductive main_code : Z -> code -> Prop :=
| mc_gps : main_code 0 GPS_L1CA | mc_sbas : main_code 1 SBAS_L1CA | mc_gal : main_code 2 GAL_E1C | mc_bds : main_code 3 BDS2_B1 | mc_qzs : main_code 5 QZS_L1CA | mc_glo : main_code 6 GLO_L1OF.
(** azimuth in units of 2 degrees, halves rounded up *)
Definition azel_says (d : nav_sat_data) (x : Z * code * Z * Z) : Prop :=
  let '(sat, c, az, el) := x in sat = ns_sv_id d /\ (forall mc, main_code (ns_gnss_id d) mc -> c = mc) /\ 2 * az - 1 <= ns_azim d <= 2 * az /\ el = ns_elev d.
(** signal strength in units of 1/4 dB-Hz *)
Definition state_says (d : nav_sat_data) (x : Z * code * Z) : Prop :=
  let '(sat, c, cn0) := x in sat = ns_sv_id d /\ (forall mc, main_code (ns_gnss_id d) mc -> c = mc) /\ cn0 = 4 * ns_cno d.
(** NAV-STATUS: [t] ms of the week, in week [w], is next to the time [ref] (week, seconds): less than half a week away, up to a millisecond *)
Definition next_to (w t : Z) (ref : Z * dbl) : Prop :=
  (Rabs (IZR (w * 604800000 + t) - (IZR (fst ref) * 604800000 + 1000 * dR (snd ref))) <= 302400001)%R.
(** the last setting of the high rate flag of converter k *)
Fixpoint hnr_on (k : Z) (es : list (Z * uev)) (b : bool) : bool :=
  match es with
  | [] => b
  | (j, EHnr c) :: es => hnr_on k es (if j =? k then c else b)
  | _ :: es => hnr_on k es b
  end.
(** NAV-STATUS: time of week and week number valid (flags bits 2, 3); a 3D or GNSS and dead reckoning fix that is within limits (flags bit 0) *)
Definition time_known (m : nav_status) : Prop := Z.testbit (nav_status_status_flags m) 2 = true /\ Z.testbit (nav_status_status_flags m) 3 = true.
Definition fix_known (m : nav_status) : Prop := (nav_status_fix_type m = 3 \/ nav_status_fix_type m = 4) /\ Z.testbit (nav_status_status_flags m) 0 = true.
(** a double that is a time of week *)
Definition gps_tow (x : dbl) : Prop := dfin x = true /\ (0 <= dR x < 604800)%R.
(** the last inertial time of converter k *)
Fixpoint last_imu (k : Z) (es : list (Z * uev)) (b : option (Z * dbl)) : option (Z * dbl) :=
  match es with
  | [] => b
  | (j, EImu t) :: es => last_imu k es (if j =? k then Some t else b)
  | _ :: es => last_imu k es b
  end.
