(** C87: the conversions of rtcm3tosbp do not interfere. *)
From Verif Require StaConv_model.
From Verif Require Import Base Time_model RtcmMsm_model Sbp2Msm_model Tunnel_model EphOut_model ObsBuffer_model Rx_model Relay_model.
Local Open Scope Z_scope.

(** the RTCM message types that have a say in the observations: the legacy observation messages, the GLONASS ephemeris (its frequency channel) and every type of the
    MSM number range *)
Definition concerns_observations (p : list Z) : bool :=
  (2 <=? len p) && (existsb (Z.eqb (message_type p)) [1002; 1004; 1010; 1012; 1020] || ((1070 <=? message_type p) && (message_type p <=? 1229))).
(** the SBP observation messages sent: sender, week, time of week, n_obs, observations *)
Definition observations {obs O} (l : list (out obs O)) : list (Z * Z * Z * Z * list obs) :=
  flat_map (fun o => match o with OObs sender w t n os => [(sender, w, t, n, os)] | _ => [] end) l.
(** the other messages sent, by kind *)
Definition stations {obs} (l : list (out obs rout)) : list StaConv_model.smsg := flat_map (fun o => match o with OOther (RSta m) => [m] | _ => [] end) l.
Definition ephemerides {obs} (l : list (out obs rout)) : list (Z * eph_msg) := flat_map (fun o => match o with OOther (REph m) => [m] | _ => [] end) l.
Definition tunnelled {obs} (l : list (out obs rout)) : list tout := flat_map (fun o => match o with OOther (RTun m) => [m] | _ => [] end) l.
