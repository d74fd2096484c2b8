(** C82: an SBP observation epoch sent by sbp2rtcm and received by rtcm3tosbp. *)
From Coq Require Import Permutation.
From Verif Require Import Base Double_model Esf_model Time_model RtcmMsm_model Signals_model Sbp2Rtcm_model Sbp2Msm_model Sbp2Msm_spec MsmVal_spec ObsBuffer_model ObsBuffer_spec ObsExcl_spec Options_model Rx_spec.
Local Open Scope Z_scope.

(** no GLONASS biases configured *)
Definition zero_opts : opts := mkopts (fun _ => fofZ 0 0) (fun _ => fofZ 0 0) (fun _ => fofZ 0 0).

(** GPS time of the epoch in milliseconds *)
Definition epoch_ms (e : Sbp2Rtcm_model.epoch) : Z := WEEK * oh_wn (e_hdr e) + oh_tow (e_hdr e).
(** the receiver's time is known and within half a week of the epoch; if there are GLONASS observations, the receiver's UTC offset is the sender's leap
    seconds and its time within 30 s of the epoch minus the leap seconds (the converter's plausibility window) *)
Definition in_step (utc_offset : gtime -> Z) (leap : Z) (glo : bool) (x : Z) (ref : gtime) : Prop :=
  good_time utc_offset ref /\ 2 * Z.abs (x - at_ms ref) < WEEK /\ (glo = true -> utc_offset ref = leap /\ plausible utc_offset ref x).
Section Spec.
Variables (carrier : code -> Z) (code_of : Z -> code).
Definition of_cons (c : RtcmMsm_model.cons) (o : pobs) : Prop := cons_of (sig_of code_of o) = Some c.
Definition has_glo (os : list pobs) : bool := negb (len (obs_of code_of cGLO os) =? 0).
(** what becomes of an observation: QZSS observations are not converted, for the others see MsmVal_spec.outcome *)
Definition relayed (ty : Z) (fcns rx : list Z) (masked : RtcmMsm_model.cons -> bool) (os : list pobs) (o : pobs) (r : option pobs) : Prop :=
  (of_cons cQZS o -> r = None) /\ (~ of_cons cQZS o -> outcome carrier code_of ty fcns rx masked os o r).
(** an epoch of valid SBP observations: distinct supported signals, values in range (MsmVal_spec), at most 210, not only QZSS *)
Definition sendable (e : Sbp2Rtcm_model.epoch) : Prop :=
  0 <= oh_tow (e_hdr e) < WEEK /\ epoch_ok code_of (e_obs e) /\ Forall obs_in_range (e_obs e) /\ len (e_obs e) <= 210 /\ Exists (fun o => ~ of_cons cQZS o) (e_obs e).
(** the observations that arrive *)
Definition somes (l : list (option pobs)) : list pobs := flat_map (fun r => match r with Some o => [o] | None => [] end) l.
(** [g] is epoch [e] as SBP messages: the time and the station of [e], the observations of [e] in another order, each as [relayed] says *)
Definition arrived {O} (ty : Z) (fcns rx : list Z) (masked : RtcmMsm_model.cons -> bool) (e : Sbp2Rtcm_model.epoch) (g : list (out pobs O)) : Prop :=
  exists ord opts, Permutation ord (e_obs e) /\ Forall2 (relayed ty fcns rx masked (e_obs e)) ord opts /\
    epoch_messages (sender_of (e_sender e mod 4096)) (oh_wn (e_hdr e)) (oh_tow (e_hdr e)) (somes opts) g.
End Spec.
