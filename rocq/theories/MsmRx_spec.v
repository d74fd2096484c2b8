(** C78: what the SBP observations made from a received MSM4-MSM7 message must say, from the fields of the payload (MsmWire_spec) and the options of
    rtcm3tosbp alone; conditions and values over the reals (metres, cycles, hertz, milliseconds). *)
From Coq Require Import Reals.
From Flocq Require Import IEEE754.Binary.
From Verif Require Import Base Options_model RtcmMsm_model RtcmMsm_spec Signals_model Signals_spec Sbp2Rtcm_model Sbp2Msm_model Sbp2Msm_spec MsmWire_spec MsmVal_spec.

(** options: a bias per signal (m), a code bias (m) and a phase bias (cycles) per GLONASS channel number and band (false: L1, true: L2) *)
Record biases := mkbiases { b_signal : code -> R; b_code : bool -> R; b_phase : bool -> R }.
(** limits within which the options are meaningful: 1000 km, 100 m, 100 cycles *)
Definition biases_ok (b : biases) : Prop :=
  (forall k, Rabs (b_signal b k) <= 1000000)%R /\ (forall x, Rabs (b_code b x) <= 100)%R /\ (forall x, Rabs (b_phase b x) <= 100)%R.
(** the options as real numbers; the program's are single precision floats, which must be finite *)
Definition real_biases (o : opts) : biases :=
  mkbiases (fun k => B2R 24 128 (op_signal o k)) (fun x => B2R 24 128 (op_glo_code o x)) (fun x => B2R 24 128 (op_glo_phase o x)).
Definition opts_ok (o : opts) : Prop :=
  (forall k, is_finite 24 128 (op_signal o k) = true) /\ (forall x, is_finite 24 128 (op_glo_code o x) = true) /\ (forall x, is_finite 24 128 (op_glo_phase o x) = true) /\ biases_ok (real_biases o).
Definition on_L2 (k : code) : bool := match k with GLO_L2OF | GLO_L2P => true | _ => false end.

Section Spec.
Variable carrier : code -> Z.
Variables (ty : Z) (h : mhdr) (w : wcols) (b : biases).
(** the receiver: constellations it discards, its GLONASS channel map (29 entries; 255: unknown) *)
Variable masked : cons -> bool.
Variable fcns : list Z.

(** cell [i] is the signal [k] of satellite [sat], and its satellite is entry [s] of the satellite columns *)
Definition describes (i s : Z) (k : code) (sat : Z) : Prop :=
  exists g p j, cell_is (cell_mask h) (set_count (sig_mask h)) i s g /\
    nth_set (sat_mask h) (s + 1) p /\ sat_pos (to_constellation (mh_num h)) sat p /\
    nth_set (sig_mask h) (g + 1) j /\ In (to_constellation (mh_num h), j + 1, k) (standard_signals ++ z_tracking).
Definition range_valid (i s : Z) : Prop := znth 0 s (w_int w) <> 255 /\ znth 0 i (w_pr w) <> - 2 ^ (pr_bits ty - 1).
Definition phase_valid (i s : Z) : Prop := znth 0 s (w_int w) <> 255 /\ znth 0 i (w_cp w) <> - 2 ^ (cp_bits ty - 1).
Definition rate_valid (i s : Z) : Prop := with_rates ty = true /\ znth 0 s (w_rate w) <> -8192 /\ znth 0 i (w_dop w) <> -16384.
(** GLONASS channel (0..13 stands for -7..6): MSM5 and MSM7 carry it, otherwise it comes from the receiver's map *)
Definition channel (s sat : Z) : Z := if with_rates ty then znth 0 s (w_info w) else znth 255 sat fcns.
Definition tuned (k : code) (s sat : Z) : Prop := glo_code k = true -> channel s sat <> 255.

Open Scope R_scope.
Definition rough_msec (s : Z) : R := IZR (znth 0%Z s (w_int w)) + IZR (znth 0%Z s (w_mod w)) / 1024.
Definition range_msec (i s : Z) : R := rough_msec s + IZR (znth 0%Z i (w_pr w)) / IZR (2 ^ (if hi_res ty then 29 else 24)).
Definition phase_msec (i s : Z) : R := rough_msec s + IZR (znth 0%Z i (w_cp w)) / IZR (2 ^ (if hi_res ty then 31 else 29)).
Definition rate_mps (i s : Z) : R := IZR (znth 0%Z s (w_rate w)) + IZR (znth 0%Z i (w_dop w)) / 10000.
Definition per_channel (f : bool -> R) (k : code) (s sat : Z) : R :=
  if glo_code k then if (channel s sat =? 255)%Z then 0 else IZR (channel s sat - 7) * f (on_L2 k) else 0.
Definition hz (k : code) (s sat : Z) : R := IZR (hertz carrier k (channel s sat)).
(** pseudorange (m), carrier phase (cycles), Doppler (Hz, positive approaching) *)
Definition range_metres (i s : Z) (k : code) (sat : Z) : R := range_msec i s * (C_M_S / 1000) + b_signal b k + per_channel (b_code b) k s sat.
Definition phase_cycles (i s : Z) (k : code) (sat : Z) : R := phase_msec i s * (hz k s sat / 1000) + per_channel (b_phase b) k s sat.
Definition doppler_hz (i s : Z) (k : code) (sat : Z) : R := - rate_mps i s * (hz k s sat / C_M_S).
Close Scope R_scope.

(** values an SBP observation can hold: a non-negative range, a Doppler below 32760 Hz, C/N0 below 63.8125 dB-Hz; GLONASS channel not "unknown" *)
Definition representable (i s : Z) (k : code) (sat : Z) : Prop :=
  (0 <= range_metres i s k sat)%R /\
  (rate_valid i s -> tuned k s sat -> (Rabs (doppler_hz i s k sat) <= 32760)%R) /\
  (hi_res ty = true -> znth 0 i (w_cnr w) <= 1021) /\
  (glo_code k = true -> with_rates ty = true -> znth 0 s (w_info w) <= 13).
(** 2 cm resolution for ranges, 1/256 for phases and Dopplers; the last terms cover double (and, for the channel biases, single) precision rounding *)
Definition obs_says (i s : Z) (k : code) (sat : Z) (num : Z) (o : pobs) : Prop :=
  o_sat o = sat /\ o_code o = num /\
  flag o 0 = true /\ (0 <= o_P o < 2 ^ 32)%Z /\ (Rabs (IZR (o_P o) / 50 - range_metres i s k sat) <= / 100 + / 10000)%R /\
  (flag o 1 = true <-> phase_valid i s /\ tuned k s sat) /\
  (flag o 1 = true -> 0 <= o_Lf o < 256 /\ (Rabs (IZR (o_Li o) + IZR (o_Lf o) / 256 - phase_cycles i s k sat) <= / 512 + / 10000)%R) /\
  (flag o 2 = true <-> flag o 1 = true /\ znth false i (w_hca w) = false) /\
  (flag o 3 = true <-> rate_valid i s /\ tuned k s sat) /\
  (flag o 3 = true -> 0 <= o_Df o < 256 /\ (Rabs (IZR (o_Di o) + IZR (o_Df o) / 256 - doppler_hz i s k sat) <= / 512 + / 1000000)%R) /\
  (if hi_res ty then Z.abs (4 * o_cn0 o - znth 0 i (w_cnr w)) <= 2 else o_cn0 o = 4 * znth 0 i (w_cnr w)) /\ byte (o_cn0 o) /\
  let t := lock_ms ty (znth 0 i (w_lock w)) in
  0 <= o_lock o <= 15 /\ (o_lock o = 0 -> t < 32) /\ (0 < o_lock o -> 2 ^ (o_lock o + 4) <= t) /\ (0 < o_lock o < 15 -> t < 2 ^ (o_lock o + 5)).
(** what becomes of cell [i] *)
Definition cell_outcome (num_of : code -> Z) (i s : Z) (r : option pobs) : Prop :=
  match r with
  | Some o => exists k sat, describes i s k sat /\ masked (to_constellation (mh_num h)) = false /\ discarded_signal k = false /\ range_valid i s /\
                obs_says i s k sat (num_of k) o
  | None => forall k sat, describes i s k sat -> masked (to_constellation (mh_num h)) = true \/ discarded_signal k = true \/ ~ range_valid i s
  end.
Definition all_representable : Prop :=
  forall i s k sat, describes i s k sat -> masked (to_constellation (mh_num h)) = false -> discarded_signal k = false -> range_valid i s -> representable i s k sat.
End Spec.
