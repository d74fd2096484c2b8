(** What MSM masks mean, and what faithful transmission of an MSM4/MSM5 message is.
    Units as in RtcmMsm_model: ranges 2^-31 ms, range rates 0.0001 m/s, C/N0 1/16 dB-Hz, lock times 1 ms. *)
From Verif Require Import Base RtcmLegacy_model RtcmMsm_model RtcmStation_spec.

(** number of set bits *)
Definition set_count (mask : list bool) : Z := len (filter (fun b : bool => b) mask).
(** bit [pos] is the [n]-th set bit (counting from 1) *)
Definition nth_set (mask : list bool) (n pos : Z) : Prop :=
  0 <= pos < len mask /\ znth false pos mask = true /\ set_count (take pos mask) = n - 1.
(** with [ng] signals per satellite, the [i]-th set cell (from 0) is satellite [s]'s signal [g] *)
Definition cell_is (mask : list bool) (ng i s g : Z) : Prop := nth_set mask (i + 1) (s * ng + g) /\ 0 <= g < ng.

Definition MS : Z := 2 ^ 31.   (* one millisecond *)
Definition DAY_MS : Z := 86400000.

Definition msm_hdr_ok (ty : Z) (h : mhdr) : Prop :=
  to_msm_type (mh_num h) = ty /\ to_constellation (mh_num h) <> cINVALID /\
  ubits 12 (mh_stn h) /\ 0 <= mh_tow h <= 604799999 /\ ubits 1 (mh_multiple h) /\ ubits 3 (mh_iods h) /\ ubits 7 (mh_reserved h) /\
  ubits 2 (mh_steering h) /\ ubits 2 (mh_ext_clock h) /\ ubits 1 (mh_div h) /\ ubits 3 (mh_smooth h) /\
  len (sat_mask h) = 64 /\ len (sig_mask h) = 32 /\ set_count (sat_mask h) <= 32 /\
  set_count (sat_mask h) * set_count (sig_mask h) <= 64 /\ len (cell_mask h) = set_count (sat_mask h) * set_count (sig_mask h).
(** rough range below 255 ms and not within 1/2048 ms below a whole millisecond; rough rate below 8192 m/s *)
Definition msm_sat_ok (ty : Z) (s : msat) : Prop :=
  0 <= rough_range s < 255 * MS /\ rough_range s mod MS < MS - 2 ^ 20 /\ (ty = 5 -> Z.abs (rough_rate s) < 8192 * 10000) /\ byte (glo_fcn s).
(** C/N0 below 63.5 dB-Hz *)
Definition msm_sig_ok (g : msig) : Prop := sv_cnr g = true -> 0 <= s_cnr g < 1016.
Definition msm_ok (ty : Z) (m : mmsg) : Prop :=
  (ty = 4 \/ ty = 5) /\ msm_hdr_ok ty (m_hdr m) /\ len (m_sats m) = set_count (sat_mask (m_hdr m)) /\
  len (m_sigs m) = set_count (cell_mask (m_hdr m)) /\ Forall (msm_sat_ok ty) (m_sats m) /\ Forall msm_sig_ok (m_sigs m).

(** the header is received unchanged, except that GLONASS keeps only the time of day *)
Definition hdr_received (h h' : mhdr) : Prop :=
  h' = mkmhdr (mh_num h) (mh_stn h) (if cons_eqb (to_constellation (mh_num h)) cGLO then mh_tow h mod DAY_MS else mh_tow h)
    (mh_multiple h) (mh_iods h) (mh_reserved h) (mh_steering h) (mh_ext_clock h) (mh_div h) (mh_smooth h) (sat_mask h) (sig_mask h) (cell_mask h).
Definition msat_received (ty : Z) (c : cons) (s s' : msat) : Prop :=
  2 * Z.abs (rough_range s' - rough_range s) <= 2 ^ 21 /\
  (ty = 4 -> rough_rate s' = 0 /\ glo_fcn s' = (if cons_eqb c cGLO then 255 else 0)) /\
  (ty = 5 -> Z.abs (rough_rate s' - rough_rate s) < 10000 /\ glo_fcn s' = glo_fcn s mod 16).
(** lock time: rounded down to a power of two of 16 ms units (0 below 32 ms), capped at 524.288 s *)
Definition msm_lock_close (t t' : Z) : Prop :=
  (t < 32 -> t' = 0) /\ (32 <= t -> 32 <= t' <= t /\ (t < 524288 * 2 -> t < 2 * t') /\ t' <= 524288).
(** a cell is received with every quantity either flagged invalid or correct to the resolution of the field; a valid quantity
    close enough to the satellite's rough value is never lost *)
Definition msig_received (ty : Z) (s : msat) (g g' : msig) : Prop :=
  (sv_pr g' = true -> sv_pr g = true /\ 2 * Z.abs (s_pr g' - s_pr g) <= 2 ^ 7) /\
  (sv_pr g = true -> Z.abs (s_pr g - rough_range s) < 2 ^ 20 - 2 ^ 6 -> sv_pr g' = true) /\
  (sv_cp g' = true -> sv_cp g = true /\ 2 * Z.abs (s_cp g' - s_cp g) <= 2 ^ 2) /\
  (sv_cp g = true -> Z.abs (s_cp g - rough_range s) < 2 ^ 23 - 2 ^ 20 - 2 -> sv_cp g' = true) /\
  (sv_lock g = true -> msm_lock_close (s_lock g) (s_lock g')) /\
  s_hca g' = s_hca g /\
  (sv_cnr g' = true -> sv_cnr g = true) /\ (sv_cnr g = true -> 2 * Z.abs (s_cnr g' - s_cnr g) <= 16 /\ (8 <= s_cnr g -> sv_cnr g' = true)) /\
  (sv_dop g' = true -> ty = 5 /\ sv_dop g = true /\ s_rate g' = s_rate g) /\
  (ty = 5 -> sv_dop g = true -> Z.abs (s_rate g - rough_rate s) < 16384 - 10000 -> sv_dop g' = true).
Definition msm_received (ty : Z) (m m' : mmsg) : Prop :=
  hdr_received (m_hdr m) (m_hdr m') /\
  Forall2 (msat_received ty (to_constellation (mh_num (m_hdr m)))) (m_sats m) (m_sats m') /\
  len (m_sigs m') = len (m_sigs m) /\
  forall i s g, 0 <= i < len (m_sigs m) -> cell_is (cell_mask (m_hdr m)) (set_count (sig_mask (m_hdr m))) i s g ->
    msig_received ty (znth no_sat s (m_sats m)) (znth no_sig i (m_sigs m)) (znth no_sig i (m_sigs m')).
