(** C73: legacy observation messages (1002, 1004, 1010, 1012) next to MSM messages, and repeated messages. *)
From Verif Require Import Base Time_model ObsBuffer_model ObsBuffer_spec.

(** absolute GPS time in ms *)
Definition at_ms (t : gtime) : Z := wn t * 604800000 + tow t.

Section Spec.
Context {obs other_out : Type}.
(** what the user sees of observations: the observation messages and the log messages about them, in order *)
Definition seen (l : list (out obs other_out)) : list (out obs other_out) :=
  filter (fun o => match o with OObs _ _ _ _ _ | OFull | ONotEmpty => true | _ => false end) l.

Context (legacy_dec : Z -> list Z -> option (legacy_msg obs)) (msm_dec : Z -> list Z -> option (msm_msg obs)) (utc_offset : gtime -> Z).

(** a received payload with the receiver's time at that moment (None: unknown) *)
Definition event : Type := option gtime * list Z.
(** the receiver's time is known, not at the very ends of the range, with a plausible UTC offset *)
Definition good_time (ref : gtime) : Prop := 2 < wn ref < 32765 /\ 0 <= tow ref < 604800000 /\ 0 <= utc_offset ref <= 3600.
(** the instant within half a week of the receiver's time that has this time of week *)
Definition instant_of_week (ref : gtime) (tow_ms x : Z) : Prop := 0 <= tow_ms < 604800000 /\ x mod 604800000 = tow_ms /\ 2 * Z.abs (x - at_ms ref) < 604800000.
(** the instant within half a day of the receiver's time at which Moscow clocks show this time of day *)
Definition instant_of_day (ref : gtime) (tod_ms x : Z) : Prop :=
  0 <= tod_ms < 86401000 /\ (x - utc_offset ref * 1000 + 10800000 - tod_ms) mod 86400000 = 0 /\ 2 * Z.abs (x - at_ms ref) < 86400000.
(** the plausibility window for GLONASS: 30 s around the receiver's time plus the UTC offset *)
Definition plausible (ref : gtime) (x : Z) : Prop := Z.abs (x - at_ms ref - utc_offset ref * 1000) <= 30000.

(** [legacy_gps e x]: e is a 1002 or 1004 message received at a known time, with observation time x *)
Definition legacy_gps (e : event) (x : Z) : Prop :=
  exists ref p m, e = (Some ref, p) /\ good_time ref /\ 2 <= len p /\ In (message_type p) [1002; 1004] /\ legacy_dec (message_type p) p = Some m /\
    instant_of_week ref (l_tow_ms m) x.
(** [legacy_glo e x]: e is a 1010 or 1012 message ... ; [ok]: whose time is plausible *)
Definition legacy_glo (ok : Prop) (e : event) (x : Z) : Prop :=
  exists ref p m, e = (Some ref, p) /\ good_time ref /\ 2 <= len p /\ In (message_type p) [1010; 1012] /\ legacy_dec (message_type p) p = Some m /\
    instant_of_day ref (l_tow_ms m) x /\ (ok -> plausible ref x).
(** [msm_at e x]: e is a GPS, Galileo, BeiDou or (plausible) GLONASS MSM message received at a known time, with observation time x, which is
    not exactly the start of a week *)
Definition msm_at (e : event) (x : Z) : Prop :=
  exists ref p m, e = (Some ref, p) /\ good_time ref /\ 2 <= len p /\ msm_dec (message_type p) p = Some m /\ x mod 604800000 <> 0 /\
    ((In (message_type p) [1074; 1075; 1076; 1077; 1094; 1095; 1096; 1097] /\ instant_of_week ref (m_tow_ms m) x) \/
     (In (message_type p) [1124; 1125; 1126; 1127] /\ 0 <= m_tow_ms m < 604800000 /\ instant_of_week ref ((m_tow_ms m + 14000) mod 604800000) x) \/
     (In (message_type p) [1084; 1085; 1086; 1087] /\ instant_of_day ref (m_tow_ms m) x /\ plausible ref x)).
(** not an MSM4..MSM7 message *)
Definition no_msm (e : event) : Prop := ~ (1074 <= message_type (snd e) <= 1127).
Definition is_legacy_gps_number (e : event) : Prop := In (message_type (snd e)) [1002; 1004].
End Spec.
Arguments event : clear implicits.
