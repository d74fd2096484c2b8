(** The time of rtcm3tosbp with the option -o (use_time_from_input_obs): the time of the last SBP observation message it has sent, at first the given date.
    c/rtcm3tosbp/src/rtcm3tosbp.c:49-82, 241-262; c/gnss_converters/src/rtcm3_sbp.c:148-154. *)
From Verif Require Import Base Bits_model Time_model RtcmMsm_model Signals_model Double_model Sbp2Rtcm_model MsmVal_model Options_model LegVal_model LegRx_model RtcmFraming_model ObsBuffer_model Rx_model.

Section Tool.
Variables (carrier num_of : code -> Z) (op : opts) (masked : RtcmMsm_model.cons -> bool) (utc_offset : gtime -> Z) (consts : Z -> dbl).
Context {A O : Type}.
Variable rest : Z -> list Z -> rstate pobs (list Z * A) -> A * list O.
(** cb_rtcm_to_sbp and update_obs_time: rtcm3tosbp.c:49-82.  The week is cast to s16; a time of week 0 does not count (fabs(tow / 1000.0) > FLOAT_EQUALITY_EPS) *)
Definition shown (t : gtime) (o : out pobs O) : gtime :=
  match o with OObs _ w tow _ _ => if tow =? 0 then t else mkt (to_signed 16 w) tow | _ => t end.
(** one payload after the other.  time_truth_state is TIME_TRUTH_SOLVED whatever the time is (rtcm3_sbp.c:149-150).  An observation message sent in the middle of a payload changes the
    time before the payload is done, but no code that runs after it in the same payload looks at the time *)
Fixpoint tool_run (ps : list (list Z)) (t : gtime) (s : rstate pobs (list Z * A)) : option (rstate pobs (list Z * A) * gtime * list (out pobs O)) :=
  match ps with
  | [] => Some (s, t, [])
  | p :: ps => match rx_step carrier num_of op masked utc_offset consts rest (Some t) p s with
               | None => None
               | Some (s, o) => match tool_run ps (fold_left shown o t) s with None => None | Some (s, t, o') => Some (s, t, o ++ o') end
               end
  end.
(** the main loop (rtcm3tosbp.c:252-262) over the reads [chunks] *)
Definition tool_bytes (chunks : list (list Z)) (t : gtime) (s : rstate pobs (list Z * A)) : option (rstate pobs (list Z * A) * gtime * list (out pobs O)) :=
  match RtcmFraming_model.run chunks with Some (_, fs) => tool_run (map payload_of fs) t s | None => None end.
End Tool.
