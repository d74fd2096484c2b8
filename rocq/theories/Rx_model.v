(** The observation side of the RTCM-to-SBP converter put together: the dispatch, gating, dating and buffering of ObsBuffer_model.v with the real decoders and
    conversions of MsmVal_model.v, Options_model.v, LegVal_model.v and LegRx_model.v in place of its parameters, and the GLONASS channel map kept in the state and
    updated by ephemerides (c/gnss_converters/src/rtcm3_sbp.c:133-636, 663-957, 1173-1183, 1459-1657).
    What the other message types keep and emit (including the SBP messages made from ephemerides, see SbpEph_model.v) stays a parameter, [rest]. *)
From Verif Require Import Base Bits_model Bitstream_model Time_model RtcmEph_model SbpEph_model RtcmLegacy_model Signals_model Double_model Sbp2Rtcm_model RtcmMsm_model MsmVal_model Options_model LegVal_model LegRx_model RtcmFraming_model ObsBuffer_model.

Section Rx.
Variables (carrier num_of : code -> Z) (op : opts) (masked : RtcmMsm_model.cons -> bool) (utc_offset : gtime -> Z) (consts : Z -> dbl).
Context {A O : Type}.
(** r_aux: the GLONASS channel map glo_sv_id_fcn_map and whatever else the state holds *)
Notation rstate := (rstate pobs (list Z * A)).
Variable rest : Z -> list Z -> rstate -> A * list O.
Definition fcns (s : rstate) : list Z := fst (r_aux s).

(** case 1074 .. 1127: rtcm3_sbp.c:521-560 (the decoder of the message's MSM type), then rtcm3_sbp.c:1546-1656 for every cell.
    None: not decoded; Some (m, None): decoded, but the conversion is undefined *)
Definition rx_msm (map : list Z) (ty : Z) (p : list Z) : option (dmsg * option (list pobs)) :=
  match run_dec (decode_msm_d (to_msm_type ty)) p with
  | Ok m => Some (m, to_sbp_b carrier num_of (bias_of op) (mkrcfg masked map) m)
  | _ => None
  end.
Definition msm_dec (map : list Z) (ty : Z) (p : list Z) : option (msm_msg pobs) :=
  match rx_msm map ty p with
  | Some (m, Some os) => Some (mkmsm (mh_tow (dm_hdr m)) (mh_stn (dm_hdr m)) os)
  | _ => None
  end.
(** the inner loop of add_obs_to_buffer, one satellite: rtcm3_sbp.c:810-903; a candidate per frequency with a valid range and phase, None if it has no SBP signal *)
Definition cand (s : sys) (second : bool) (sv c : Z) (q : dfreq) : option (list (option pobs)) :=
  match freq_to_sbp_b num_of (fun k => dofflt (op_signal op k)) s second sv c q with
  | None => None
  | Some l => Some (if qv_pr q && qv_cp q then match l with o :: _ => [Some o] | [] => [None] end else [])
  end.
Definition sat_cands (s : sys) (x : rxsat) : option (list (option pobs)) :=
  match cand s false (x_sv x) (x_c1 x) (x_l1 x), cand s true (x_sv x) (x_c2 x) (x_l2 x) with Some a, Some b => Some (a ++ b) | _, _ => None end.
(** case 1002, 1004, 1010, 1012: rtcm3_sbp.c:213-279 *)
Definition rx_leg (ty : Z) (p : list Z) : option (rxmsg * option (list (option pobs))) :=
  match decode_any ty with
  | None => None
  | Some (s, d) => match run_dec d p with Ok m => Some (m, option_map (@concat _) (all_some (map (sat_cands s) (rx_sats m)))) | _ => None end
  end.
Definition legacy_dec (ty : Z) (p : list Z) : option (legacy_msg pobs) :=
  match rx_leg ty p with
  | Some (m, Some cs) => Some (mklegacy (h_tow (rx_hdr m)) (h_stn (rx_hdr m)) (h_sync (rx_hdr m)) cs)
  | _ => None
  end.
(** rtcm2sbp_set_glo_fcn for an accepted 1020: rtcm3_sbp.c:294-309 *)
Definition learn_fcn (p : list Z) (s : rstate) : list Z :=
  match run_dec decode_glo p with
  | Ok g => match glo_eph_to_sbp consts g (r_time s) (r_leap s) with Some e => set_glo_fcn (fcns s) (sg_sat e) (sg_fcn e) | None => fcns s end
  | _ => fcns s
  end.
Definition rx_other (ty : Z) (p : list Z) (s : rstate) : (list Z * A) * list O :=
  let '(a, os) := rest ty p s in ((if ty =? 1020 then learn_fcn p s else fcns s, a), os).
(** the conversion of an observation message has no defined result.  Simplification: the code does not convert the observations of a message it drops because of its
    time or because the buffer is full; here such a message with an undefined conversion also ends the run *)
Definition rx_undefined (map : list Z) (p : list Z) : bool :=
  let ty := message_type p in
  match ObsBuffer_model.kind_of ty with
  | KGps | KGlo => match rx_leg ty p with Some (_, None) => true | _ => false end
  | KMsm _ => match rx_msm map ty p with Some (_, None) => true | _ => false end
  | KOther => false
  end.
(** rtcm2sbp_decode_payload; None: undefined behaviour or a failed assertion *)
Definition rx_step (tin : option gtime) (p : list Z) (s : rstate) : option (rstate * list (out pobs O)) :=
  if match tin with Some _ => (2 <=? len p) && rx_undefined (fcns s) p | None => false end then None
  else decode_payload legacy_dec (msm_dec (fcns s)) utc_offset rx_other tin p s.
(** payloads with the state of the time truth at the arrival of each *)
Fixpoint rx_run (l : list (option gtime * list Z)) (s : rstate) : option (rstate * list (out pobs O)) :=
  match l with
  | [] => Some (s, [])
  | (tin, p) :: l => match rx_step tin p s with
                     | None => None
                     | Some (s, o) => match rx_run l s with None => None | Some (s, o') => Some (s, o ++ o') end
                     end
  end.
(** rtcm2sbp_process over the reads [chunks]: the framing of RtcmFraming_model.v hands every frame's payload to rtcm2sbp_decode_payload (rtcm3_sbp.c:638-654, 1680-1765);
    [times]: the time truth at each of them *)
Definition payload_of (f : list Z) : list Z := sub f 3 (len f - 6).
Definition rx_bytes (chunks : list (list Z)) (times : list (option gtime)) (s : rstate) : option (rstate * list (out pobs O)) :=
  match RtcmFraming_model.run chunks with
  | Some (_, fs) => rx_run (combine times (map payload_of fs)) s
  | None => None
  end.
(** rtcm2sbp_init: rtcm3_sbp.c:80-131 *)
Definition rx_init (a : A) : rstate := r_init (fcn_map0, a).
End Rx.
