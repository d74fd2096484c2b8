(** Specification vocabulary for C85: what an SBP observation message may contain. *)
From Verif Require Import Base Time_model RtcmMsm_model Signals_model Sbp2Rtcm_model Sbp2Msm_model MsmVal_spec ObsBuffer_model.

(** the satellite numbers of a constellation in SBP *)
Definition sat_numbers (c : RtcmMsm_model.cons) : Z * Z :=
  match c with cGPS => (1, 32) | cSBAS => (120, 158) | cGLO => (1, 28) | cBDS => (1, 63) | cQZS => (193, 202) | cGAL => (1, 36) | cINVALID => (1, 0) end.
(** the signals of the legacy messages 1002, 1004, 1010, 1012 *)
Definition legacy_signals : list code := [GPS_L1CA; GPS_L1P; GPS_L2CM; GPS_L2P; SBAS_L1CA; GLO_L1OF; GLO_L2OF].

(** one observation: every field in the range of its SBP type, no value behind a flag that is not set, and a satellite and a signal that belong together.
    Flags: bit 0 pseudorange, bit 1 carrier phase, bit 2 half-cycle ambiguity resolved, bit 3 Doppler *)
Definition obs_ok (num_of : code -> Z) (masked : RtcmMsm_model.cons -> bool) (o : pobs) : Prop :=
  0 <= o_P o < 2 ^ 32 /\ - 2 ^ 31 <= o_Li o < 2 ^ 31 /\ 0 <= o_Lf o < 256 /\ - 2 ^ 15 <= o_Di o < 2 ^ 15 /\ 0 <= o_Df o < 256 /\
  0 <= o_cn0 o < 256 /\ 0 <= o_lock o <= 15 /\ 0 <= o_flags o < 16 /\
  Z.testbit (o_flags o) 0 = true /\
  (Z.testbit (o_flags o) 1 = false -> o_Li o = 0 /\ o_Lf o = 0 /\ Z.testbit (o_flags o) 2 = false) /\
  (Z.testbit (o_flags o) 3 = false -> o_Di o = 0 /\ o_Df o = 0) /\
  exists k c, o_code o = num_of k /\ cons_of k = Some c /\ discarded_signal k = false /\
    fst (sat_numbers c) <= o_sat o <= snd (sat_numbers c) /\ (masked c = true -> In k legacy_signals).

(** one message of an epoch: sender, week, time of week, n_obs (number of messages in the high nibble, index in the low one), observations *)
Definition message_ok {obs} (Q : obs -> Prop) (sender w t n : Z) (os : list obs) : Prop :=
  (61568 <= sender <= 65535 \/ sender = 0 /\ os = []) /\ 0 <= w <= 32767 /\ 0 <= t < 604800000 /\
  1 <= n / 16 <= 15 /\ 0 <= n mod 16 < n / 16 /\ len os <= 14 /\
  (n mod 16 < n / 16 - 1 -> len os = 14) /\ (os = [] -> n = 16) /\ Forall Q os.
Definition output_ok {obs oo} (Q : obs -> Prop) (o : out obs oo) : Prop :=
  match o with OObs sender w t n os => message_ok Q sender w t n os | _ => True end.
