(** Specification vocabulary for C27, C51, C53: the signal tables of RTCM 10403.3 (Tables 3.5-91, 96, 99, 102, 105, 108) restricted to
    the signals the converters support, independent of the search/switch code. *)
From Verif Require Import Base RtcmLegacy_model RtcmMsm_model RtcmMsm_spec Signals_model.

(** (constellation, signal id 1..32 of the standard, code); the two GPS Z-tracking ids 4 (1W) and 10 (2W) are aliases *)
Definition standard_signals : list (cons * Z * code) :=
  [ (cGPS, 2, GPS_L1CA); (cGPS, 3, GPS_L1P); (cGPS, 9, GPS_L2P); (cGPS, 15, GPS_L2CM); (cGPS, 16, GPS_L2CL); (cGPS, 17, GPS_L2CX);
    (cGPS, 22, GPS_L5I); (cGPS, 23, GPS_L5Q); (cGPS, 24, GPS_L5X); (cGPS, 30, GPS_L1CI); (cGPS, 31, GPS_L1CQ); (cGPS, 32, GPS_L1CX);
    (cGLO, 2, GLO_L1OF); (cGLO, 3, GLO_L1P); (cGLO, 8, GLO_L2OF); (cGLO, 9, GLO_L2P);
    (cGAL, 2, GAL_E1C); (cGAL, 4, GAL_E1B); (cGAL, 5, GAL_E1X); (cGAL, 8, GAL_E6C); (cGAL, 10, GAL_E6B); (cGAL, 11, GAL_E6X);
    (cGAL, 14, GAL_E7I); (cGAL, 15, GAL_E7Q); (cGAL, 16, GAL_E7X); (cGAL, 18, GAL_E8I); (cGAL, 19, GAL_E8Q); (cGAL, 20, GAL_E8X);
    (cGAL, 22, GAL_E5I); (cGAL, 23, GAL_E5Q); (cGAL, 24, GAL_E5X);
    (cSBAS, 2, SBAS_L1CA); (cSBAS, 22, SBAS_L5I); (cSBAS, 23, SBAS_L5Q); (cSBAS, 24, SBAS_L5X);
    (cQZS, 2, QZS_L1CA); (cQZS, 15, QZS_L2CM); (cQZS, 16, QZS_L2CL); (cQZS, 17, QZS_L2CX); (cQZS, 22, QZS_L5I); (cQZS, 23, QZS_L5Q);
    (cQZS, 24, QZS_L5X); (cQZS, 30, QZS_L1CI); (cQZS, 31, QZS_L1CQ); (cQZS, 32, QZS_L1CX);
    (cBDS, 2, BDS2_B1); (cBDS, 8, BDS3_B3I); (cBDS, 9, BDS3_B3Q); (cBDS, 10, BDS3_B3X); (cBDS, 14, BDS2_B2); (cBDS, 22, BDS3_B5I);
    (cBDS, 23, BDS3_B5Q); (cBDS, 24, BDS3_B5X); (cBDS, 25, BDS3_B7I); (cBDS, 30, BDS3_B1CI); (cBDS, 31, BDS3_B1CQ); (cBDS, 32, BDS3_B1CX) ].
Definition z_tracking : list (cons * Z * code) := [ (cGPS, 4, GPS_L1P); (cGPS, 10, GPS_L2P) ].

(** masks of the sizes of the C struct *)
Definition mask_sizes (h : mhdr) : Prop := len (sat_mask h) = 64 /\ len (sig_mask h) = 32 /\ len (cell_mask h) = 64.
(** a header being built: no cell marked yet, the grid fits *)
Definition building (h : mhdr) : Prop :=
  mask_sizes h /\ (forall i, znth false i (cell_mask h) = false) /\ set_count (sat_mask h) * set_count (sig_mask h) <= 64.
(** everything but the masks *)
Definition same_fields (h h' : mhdr) : Prop :=
  mh_num h' = mh_num h /\ mh_stn h' = mh_stn h /\ mh_tow h' = mh_tow h /\ mh_multiple h' = mh_multiple h /\ mh_iods h' = mh_iods h /\
  mh_reserved h' = mh_reserved h /\ mh_steering h' = mh_steering h /\ mh_ext_clock h' = mh_ext_clock h /\ mh_div h' = mh_div h /\
  mh_smooth h' = mh_smooth h.
(** satellite [prn] of the constellation sits at mask position [i]; code [k] at mask position [j] *)
Definition sat_pos (c : cons) (prn i : Z) : Prop := first_prn c <= prn < first_prn c + prn_count c /\ i = prn - first_prn c.
Definition sig_pos (c : cons) (k : code) (j : Z) : Prop := In (c, j + 1, k) standard_signals.
(** the cell of satellite position i, signal position j in a header's cell mask *)
Definition cell_of (h : mhdr) (i j : Z) : Z :=
  set_count (take i (sat_mask h)) * set_count (sig_mask h) + set_count (take j (sig_mask h)).
